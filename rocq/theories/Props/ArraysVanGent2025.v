(** Property C70: overtopping of dikes and breakwaters, Van Gent (2025), with arrays. *)
From Coq Require Import Reals Lra Lia List Bool Arith.
From Verif.Lib Require Import Num Monad Arr ArrFlags ArrLoop RTac NTac.
From Verif.Spec Require Import Overtopping Arrays ArrayFlags ArrayStacks ArrayLoops ArrayOne ArrayWide ArrayWarnings ArrayCalls.
From Verif.Model Require Import CoreUtility ArrCore.
From Verif.Model Require CorePhysics VanGent2025 ArrVanGent2025.
From Verif.Props Require OvertoppingVanGent25.
From Verif.Proofs Require Import Warns Core CheckTac Arrays ArrayLoops ArrayFlags ArrayTaw ArrayStacks ArrayWarnings ArrayCalls ArrayOne ArrayWide.
Import ListNotations.
Open Scope nat_scope.

#[local] Hint Unfold ArrVanGent2025.calculate_influence_friction_gamma_f ArrVanGent2025.calculate_influence_berm_gamma_b
  ArrVanGent2025.calculate_influence_oblique_waves_gamma_beta ArrVanGent2025.calculate_influence_crest_wall_gamma_v
  ArrVanGent2025.calculate_influence_wind_gamma_w ArrVanGent2025.q_diml_max_equation ArrVanGent2025.q_diml_equation
  ArrVanGent2025.Rc_diml_max_equation ArrVanGent2025.Rc_diml_equation ArrVanGent2025.wind_step : arrays.

Ltac part_tac :=
  split; [let F := fresh "F" in intros ?sh F; args_tac; unfold float; autounfold with arrays; eapply den_ext; [den_tac|intros; reflexivity]
         |split; [unfold float; autounfold with arrays; eapply uses_incl; [uses_tac|incl_tac]
                 |unfold float; autounfold with arrays; tame_tac]].

Lemma den_one sh (a : nums) x : one_number a x -> stretches (shape a) sh -> den sh (value_of a) (fun _ => x).
Proof. intros O S. apply (den_ext _ _ (fun i => place i a)); [apply den_leaf, S|]. intros i I. apply (one_place _ _ i O). Qed.

Lemma part_ext needs bears e v w : part needs bears e v -> (forall i, v i = w i) -> part needs bears e w.
Proof. intros (D & U) H. split; [|exact U]. intros sh F. eapply den_ext; [apply D, F|]. intros; apply H. Qed.

Lemma part_beta beta gamma_beta obs : factor_from gamma_beta [beta] obs ->
  part obs obs (ArrVanGent2025.factor_beta beta gamma_beta) (fun i => VanGent2025.factor_beta (place i beta) (place i gamma_beta)).
Proof.
  intros (x & O & C). unfold ArrVanGent2025.factor_beta. rewrite (one_is_nan _ _ O), bind_ret_l.
  destruct C as [(N & ->)|(N & ->)]; rewrite N.
  - eapply part_ext; [part_tac|]. intros i. unfold VanGent2025.factor_beta. rewrite (one_place _ _ i O), N. reflexivity.
  - eapply part_ext; [part_tac|]. intros i. unfold VanGent2025.factor_beta. rewrite (one_place _ _ i O), N. reflexivity.
Qed.

Lemma part_b Hm0 Tmm10 Ac B_berm db gamma_b bs : factor_from gamma_b [Ac; B_berm; db] bs ->
  part (Hm0 :: Tmm10 :: bs) bs (ArrVanGent2025.factor_b Hm0 Tmm10 Ac B_berm db gamma_b)
    (fun i => VanGent2025.factor_b (place i Hm0) (place i Tmm10) (place i Ac) (place i B_berm) (place i db) (place i gamma_b)).
Proof.
  intros (x & O & C). unfold ArrVanGent2025.factor_b. rewrite (one_is_nan _ _ O), bind_ret_l.
  destruct C as [(N & ->)|(N & ->)]; rewrite N.
  - eapply part_ext; [part_tac|]. intros i. unfold VanGent2025.factor_b. rewrite (one_place _ _ i O), N. reflexivity.
  - eapply part_ext; [part_tac|]. intros i. unfold VanGent2025.factor_b. rewrite (one_place gamma_b _ i O), N. reflexivity.
Qed.

Definition scalar_f (Hm0 Tmm10 Dn50 gamma_f : num) : num :=
  if isnan gamma_f then VanGent2025.calculate_influence_friction_gamma_f Dn50 Hm0 (CorePhysics.calculate_wave_steepness_s Hm0 Tmm10 CorePhysics.g_default)
  else gamma_f.

Lemma part_f Hm0 Tmm10 Dn50 gamma_f fs : factor_from gamma_f [Dn50] fs -> stone_known gamma_f Dn50 ->
  part (Hm0 :: Tmm10 :: fs) fs (ArrVanGent2025.factor_f Hm0 Tmm10 Dn50 gamma_f)
    (fun i => scalar_f (place i Hm0) (place i Tmm10) (place i Dn50) (place i gamma_f))
  /\ forall i, VanGent2025.factor_f (place i Hm0) (place i Tmm10) (place i Dn50) (place i gamma_f) = ret (scalar_f (place i Hm0) (place i Tmm10) (place i Dn50) (place i gamma_f)).
Proof.
  intros (x & O & C) K. unfold ArrVanGent2025.factor_f, VanGent2025.factor_f, scalar_f. rewrite (one_is_nan _ _ O), bind_ret_l.
  destruct C as [(N & ->)|(N & ->)]; rewrite N.
  - split; [eapply part_ext; [part_tac|]|]; intros i; cbv beta; rewrite (one_place _ _ i O), N; reflexivity.
  - assert (KD : exists d, one_number Dn50 d /\ isnan d = false).
    { destruct K as [(y & Oy & Ny)|K]; [|exact K]. unfold one_number in *. rewrite O in Oy. injection Oy as ->. congruence. }
    destruct KD as (d & Od & Nd). rewrite (one_is_nan _ _ Od), bind_ret_l, Nd.
    split; [eapply part_ext; [part_tac|]|]; intros i; cbv beta; rewrite (one_place gamma_f _ i O), N; [reflexivity|]. rewrite (one_place Dn50 _ i Od), Nd. reflexivity.
Qed.

Section Factors.
Variables (Hm0 Hm0_swell Tmm10 r Ac cot_alpha beta B_berm db Dn50 gamma_f gamma_b gamma_v gamma_beta : nums).
Variables (obs bs fs : list nums).
Hypothesis HO : factor_from gamma_beta [beta] obs.
Hypothesis HB : factor_from gamma_b [Ac; B_berm; db] bs.
Hypothesis HF : factor_from gamma_f [Dn50] fs.
Hypothesis HK : stone_known gamma_f Dn50.

Definition core : list nums := [Hm0; Hm0_swell; Tmm10; r; cot_alpha; gamma_v] ++ obs ++ bs ++ fs.
Definition with_factors {A} (k : nums -> nums -> nums -> nums -> M A) : M A :=
  gb <- ArrVanGent2025.factor_beta beta gamma_beta ;;
  ksi <- calculate_Iribarren_number_ksi Hm0 Tmm10 cot_alpha ;;
  b <- ArrVanGent2025.factor_b Hm0 Tmm10 Ac B_berm db gamma_b ;;
  f <- ArrVanGent2025.factor_f Hm0 Tmm10 Dn50 gamma_f ;;
  k gb ksi b f.
Definition at_factors {A} (i : nat) (k : num -> num -> num -> num -> A) : A :=
  k (VanGent2025.factor_beta (place i beta) (place i gamma_beta))
    (CorePhysics.calculate_Iribarren_number_ksi (place i Hm0) (place i Tmm10) (place i cot_alpha))
    (VanGent2025.factor_b (place i Hm0) (place i Tmm10) (place i Ac) (place i B_berm) (place i db) (place i gamma_b))
    (scalar_f (place i Hm0) (place i Tmm10) (place i Dn50) (place i gamma_f)).

Lemma core_forall sh : Forall (fun a => stretches (shape a) sh) core ->
  (stretches (shape Hm0) sh /\ stretches (shape Hm0_swell) sh /\ stretches (shape Tmm10) sh /\ stretches (shape r) sh
   /\ stretches (shape cot_alpha) sh /\ stretches (shape gamma_v) sh)
  /\ Forall (fun a => stretches (shape a) sh) obs /\ Forall (fun a => stretches (shape a) sh) bs /\ Forall (fun a => stretches (shape a) sh) fs.
Proof.
  unfold core. intros F. apply Forall_app in F as (F & G). apply Forall_app in G as (G & H). apply Forall_app in H as (H & I). args_tac. auto 12.
Qed.

Lemma expression_factors more k w :
  (forall gb ksi b f, expression ([Hm0; Hm0_swell; r; cot_alpha; gamma_v; gb; ksi; b; f] ++ more) (k gb ksi b f)
     (fun i => w i (place i gb) (place i ksi) (place i b) (place i f))) ->
  expression (core ++ more) (with_factors k) (fun i => at_factors i (w i)).
Proof.
  intros H. destruct (part_beta _ _ _ HO) as (D1 & U1 & T1). destruct (part_b Hm0 Tmm10 _ _ _ _ _ HB) as (D2 & U2 & T2).
  destruct (part_f Hm0 Tmm10 _ _ _ HF HK) as ((D3 & U3 & T3) & _). split; [|split].
  - intros sh F0. apply Forall_app in F0 as (F & FM). apply core_forall in F as ((S1 & S2 & S3 & S4 & S5 & S6) & Fo & Fb & Ff). unfold with_factors.
    eapply den_bind; [apply D1, Fo|]. intros gb Sg Dg.
    eapply den_bind. { autounfold with arrays. den_tac. } intros ksi Sk Dk.
    eapply den_bind; [apply D2; constructor; [exact S1|constructor; [exact S3|exact Fb]]|]. intros b Sb Db.
    eapply den_bind; [apply D3; constructor; [exact S1|constructor; [exact S3|exact Ff]]|]. intros f Sf Df.
    eapply den_ext; [apply H|]. { apply Forall_app. split; [repeat (constructor; [assumption|]); constructor|exact FM]. }
    intros i I. unfold at_factors. cbv beta. rewrite (den_place _ _ _ i Dg I), (den_place _ _ _ i Dk I), (den_place _ _ _ i Db I), (den_place _ _ _ i Df I). reflexivity.
  - intros q E. unfold with_factors in E. apply step in E as (gb & Eg & E). apply step in E as (ksi & Ek & E). apply step in E as (b & Eb & E). apply step in E as (f & Ef & E).
    destruct (H gb ksi b f) as (_ & U & _). specialize (U q E). specialize (U1 gb Eg).
    assert (UK : uses (calculate_Iribarren_number_ksi Hm0 Tmm10 cot_alpha) [shape Tmm10]) by (autounfold with arrays; eapply uses_incl; [uses_tac|incl_tac]).
    specialize (UK ksi Ek). inversion UK as [|? ? UT _]; subst. specialize (U2 b Eb). specialize (U3 f Ef).
    rewrite map_app in U. apply Forall_app in U as (U & UM). cbn [map] in U. args_tac.
    rewrite map_app. apply Forall_app. split; [|exact UM].
    unfold core. cbn [map app]. repeat (constructor; [first [assumption|eapply stretches_trans; eassumption]|]). rewrite !map_app. apply Forall_app. split; [|apply Forall_app; split].
    + eapply Forall_impl; [|exact U1]. cbv beta. intros s S. eapply stretches_trans; eauto.
    + eapply Forall_impl; [|exact U2]. cbv beta. intros s S. eapply stretches_trans; eauto.
    + eapply Forall_impl; [|exact U3]. cbv beta. intros s S. eapply stretches_trans; eauto.
  - unfold with_factors. apply tame_bind; [exact T1|]. intros gb _. apply tame_bind; [autounfold with arrays; tame_tac|]. intros ksi _.
    apply tame_bind; [exact T2|]. intros b _. apply tame_bind; [exact T3|]. intros f _. apply H.
Qed.

Lemma factors_pair {A} k k' (K : nums -> nums -> M A) :
  value (with_factors (fun gb ksi b f => x <- k gb ksi b f ;; y <- k' gb ksi b f ;; K x y)) = value (x <- with_factors k ;; y <- with_factors k' ;; K x y).
Proof.
  unfold with_factors. rewrite !value_bind. destruct (value (ArrVanGent2025.factor_beta beta gamma_beta)) as [gb|] eqn:E1; [|reflexivity].
  rewrite !value_bind. destruct (value (calculate_Iribarren_number_ksi Hm0 Tmm10 cot_alpha)) as [ksi|] eqn:E2; [|reflexivity].
  rewrite !value_bind. destruct (value (ArrVanGent2025.factor_b Hm0 Tmm10 Ac B_berm db gamma_b)) as [b|] eqn:E3; [|reflexivity].
  rewrite !value_bind. destruct (value (ArrVanGent2025.factor_f Hm0 Tmm10 Dn50 gamma_f)) as [f|] eqn:E4; [|reflexivity].
  rewrite !value_bind. destruct (value (k gb ksi b f)) as [x|]; [|reflexivity].
  rewrite !value_bind, E1, value_bind, E2, value_bind, E3, value_bind, E4. reflexivity.
Qed.
End Factors.

Ltac checks_tac := unfold ArrVanGent2025.check_validity_range; unfold anan; autounfold with arrays; runs_tac.

Lemma check_runs sh Hm0 Tmm10 beta cot_alpha Dn50 Rc Ac B_berm db :
  Forall (fun a => stretches (shape a) sh) [Hm0; Tmm10; cot_alpha; Dn50; Rc; Ac; B_berm; db] ->
  value (ArrVanGent2025.check_validity_range Hm0 anan Tmm10 beta anan cot_alpha Dn50 Rc Ac anan B_berm db) = Ok tt.
Proof. intros F. args_tac. assert (W : widens sh sh) by apply stretches_refl. checks_tac. Qed.
Lemma check_tame Hm0 Tmm10 beta cot_alpha Dn50 Rc Ac B_berm db :
  tame (ArrVanGent2025.check_validity_range Hm0 anan Tmm10 beta anan cot_alpha Dn50 Rc Ac anan B_berm db).
Proof. unfold ArrVanGent2025.check_validity_range, anan. autounfold with arrays. tame_tac. Qed.

Lemma scalar_check Hm0 H Tmm10 beta h cot_alpha Dn50 Rc Ac hc B_berm db : value (VanGent2025.check_validity_range Hm0 H Tmm10 beta h cot_alpha Dn50 Rc Ac hc B_berm db) = Ok tt.
Proof.
  unfold VanGent2025.check_validity_range. mchecks.
  repeat (match goal with |- context [value (when ?b ?m)] => rewrite (value_when b m) by (mchecks; reflexivity) end; mchecks). reflexivity.
Qed.

Lemma expression_ext args e v w : expression args e v -> (forall i, v i = w i) -> expression args e w.
Proof. intros (D & U) H. split; [|exact U]. intros sh F. eapply den_ext; [apply D, F|]. intros; apply H. Qed.

Section Discharge.
Variables (Hm0 Hm0_swell Tmm10 Rc Ac cot_alpha beta B_berm db Dn50 gamma_f gamma_b gamma_v gamma_beta : nums) (g : num) (design wind : bool).
Variables (obs bs fs : list nums).
Hypothesis HO : factor_from gamma_beta [beta] obs.
Hypothesis HB : factor_from gamma_b [Ac; B_berm; db] bs.
Hypothesis HF : factor_from gamma_f [Dn50] fs.
Hypothesis HK : stone_known gamma_f Dn50.

Theorem C70_q_diml :
  flagged_wider ([Hm0; Hm0_swell; Tmm10; Rc; cot_alpha; gamma_v] ++ obs ++ bs ++ fs) (if wind then [Ac] else []) [Ac; B_berm; db; Dn50]
    (ArrVanGent2025.calculate_dimensionless_overtopping_discharge_q Hm0 Hm0_swell Tmm10 Rc Ac cot_alpha beta B_berm db Dn50 gamma_f gamma_b gamma_v gamma_beta design wind)
    (fun at_ => value (VanGent2025.calculate_dimensionless_overtopping_discharge_q (at_ Hm0) (at_ Hm0_swell) (at_ Tmm10) (at_ Rc) (at_ Ac) (at_ cot_alpha) (at_ beta)
       (at_ B_berm) (at_ db) (at_ Dn50) (at_ gamma_f) (at_ gamma_b) (at_ gamma_v) (at_ gamma_beta) design wind)).
Proof.
  change ([Hm0; Hm0_swell; Tmm10; Rc; cot_alpha; gamma_v] ++ obs ++ bs ++ fs) with (core Hm0 Hm0_swell Tmm10 Rc cot_alpha gamma_v obs bs fs).
  set (W := with_factors (A := nums) Hm0 Tmm10 Ac cot_alpha beta B_berm db Dn50 gamma_f gamma_b gamma_beta).
  set (I_ := fun i => at_factors (A := num) Hm0 Tmm10 Ac cot_alpha beta B_berm db Dn50 gamma_f gamma_b gamma_beta i).
  eapply (wider_intro _ _ (if wind then [Rc; Ac; Hm0] else []) _
    (W (fun gb ksi b f => ArrVanGent2025.q_diml_equation Hm0 Hm0_swell ksi cot_alpha Rc f b gamma_v gb))
    (W (fun gb ksi b f => ArrVanGent2025.q_diml_max_equation Hm0 Hm0_swell ksi cot_alpha Rc f b gamma_v gb))
    (fun i => I_ i (fun gb ksi b f => (#6.8 * npow (place i cot_alpha) (- #1) * nexp (- #5 * (place i Rc - #0.4 * place i Hm0_swell) / (f * b * place i gamma_v * gb * ksi * place i Hm0)))%num))
    (fun i => I_ i (fun gb ksi b f => VanGent2025.q_diml_max_equation (place i Hm0) (place i Hm0_swell) ksi (place i cot_alpha) (place i Rc) f b (place i gamma_v) gb))
    (ArrVanGent2025.after_minimum Hm0 Rc Ac design wind)
    (fun i z => let z := if wind then (z * VanGent2025.calculate_influence_wind_gamma_w (place i Rc) (place i Ac) (place i Hm0) z)%num else z in
                if design then npow z #0.857%num else z)
    (fun _ => ArrVanGent2025.check_validity_range Hm0 anan Tmm10 beta anan cot_alpha Dn50 Rc Ac anan B_berm db)).
  - unfold W. rewrite <- (factors_pair Hm0 Tmm10 Ac cot_alpha beta B_berm db Dn50 gamma_f gamma_b gamma_beta). reflexivity.
  - rewrite <- (app_nil_r (core _ _ _ _ _ _ _ _ _)). apply (expression_factors Hm0 Hm0_swell Tmm10 Rc Ac cot_alpha beta B_berm db Dn50 gamma_f gamma_b gamma_v gamma_beta obs bs fs HO HB HF HK [] _
      (fun i gb ksi b f => (#6.8 * npow (place i cot_alpha) (- #1) * nexp (- #5 * (place i Rc - #0.4 * place i Hm0_swell) / (f * b * place i gamma_v * gb * ksi * place i Hm0)))%num)).
    intros. cbn [app]. expression_tac.
  - rewrite <- (app_nil_r (core _ _ _ _ _ _ _ _ _)). apply (expression_factors Hm0 Hm0_swell Tmm10 Rc Ac cot_alpha beta B_berm db Dn50 gamma_f gamma_b gamma_v gamma_beta obs bs fs HO HB HF HK [] _
      (fun i gb ksi b f => VanGent2025.q_diml_max_equation (place i Hm0) (place i Hm0_swell) ksi (place i cot_alpha) (place i Rc) f b (place i gamma_v) gb)).
    intros. cbn [app]. expression_tac.
  - intros z. unfold ArrVanGent2025.after_minimum. destruct wind, design; expression_tac.
  - destruct wind; unfold core; cbn [app]; intros a [<-|[<-|[<-|[]]]] || intros a []; cbn [In]; rewrite ?in_app_iff; cbn [In]; auto 12.
  - destruct wind; intros a I; cbn [In] in *; tauto.
  - intros _. apply check_tame.
  - intros sh u F _. apply Forall_app in F as (F & G). apply Forall_app in G as (_ & G). apply core_forall in F as ((S1 & S2 & S3 & S4 & S5 & S6) & _). args_tac.
    apply (check_runs sh). repeat (constructor; [assumption|]). constructor.
  - intros sh i F I. destruct (part_f Hm0 Tmm10 _ _ _ HF HK) as (_ & P). unfold VanGent2025.calculate_dimensionless_overtopping_discharge_q. rewrite P, bind_ret_l.
    cbv zeta. rewrite value_bind, scalar_check. unfold I_, at_factors. destruct wind, design; reflexivity.
Qed.

Theorem C70_q :
  flagged_wider ([Hm0; Hm0_swell; Tmm10; Rc; cot_alpha; gamma_v] ++ obs ++ bs ++ fs) (if wind then [Ac] else []) [Ac; B_berm; db; Dn50]
    (ArrVanGent2025.calculate_overtopping_discharge_q Hm0 Hm0_swell Tmm10 Rc Ac cot_alpha beta B_berm db Dn50 gamma_f gamma_b gamma_v gamma_beta g design wind)
    (fun at_ => value (VanGent2025.calculate_overtopping_discharge_q (at_ Hm0) (at_ Hm0_swell) (at_ Tmm10) (at_ Rc) (at_ Ac) (at_ cot_alpha) (at_ beta)
       (at_ B_berm) (at_ db) (at_ Dn50) (at_ gamma_f) (at_ gamma_b) (at_ gamma_v) (at_ gamma_beta) g design wind)).
Proof.
  unfold ArrVanGent2025.calculate_overtopping_discharge_q. eapply wider_times; [apply C70_q_diml| |].
  - intros sh F. apply core_forall in F as ((S1 & _) & _). unfold float. autounfold with arrays. den_tac.
  - intros sh i x b _ _ E. cbv beta in *. unfold VanGent2025.calculate_overtopping_discharge_q. rewrite value_bind, E. reflexivity.
Qed.
End Discharge.

Lemma min_again a b : nmin (nmin a b) b = nmin a b.
Proof.
  destruct a as [a| | |], b as [b| | |]; unfold nmin; cbn; try reflexivity; [|destruct (Rltb b b); reflexivity].
  destruct (Rltb b a) eqn:L; cbn; [destruct (Rltb b b); reflexivity|rewrite L; reflexivity].
Qed.
Lemma stacked_again (x y z : nums) : value (stacked_min x y) = Ok z -> value (stacked_min z y) = Ok z.
Proof.
  unfold stacked_min, stacked. rewrite !value_bind. cbn [value value_of ret snd]. rewrite !value_bind. cbn [value value_of ret snd].
  destruct x as [a|l], y as [b|m]; cbn [shape shape_eqb]; try discriminate.
  - cbn. intros E. injection E as <-. cbn. rewrite min_again. reflexivity.
  - destruct (Nat.eqb (length l) (length m)) eqn:L; [|discriminate]. cbn [bcast]. rewrite L. cbn [value ret snd]. intros E. injection E as <-. cbn [shape shape_eqb].
    apply Nat.eqb_eq in L. assert (LL : length (map2 nmin l m) = length m).
    { clear -L. revert m L. induction l as [|a l IH]; intros [|b m] L; cbn in *; try discriminate; auto. }
    assert (MM : map2 nmin (map2 nmin l m) m = map2 nmin l m).
    { clear -L. revert m L. induction l as [|a l IH]; intros [|b m] L; cbn in *; try discriminate; auto. rewrite min_again, IH by auto. reflexivity. }
    rewrite LL, Nat.eqb_refl. cbn [bcast]. rewrite LL, Nat.eqb_refl, MM. reflexivity.
Qed.

(** ** The loop *)

(** The result is that of an iteration, or what there was before *)
Lemma until_from next feed tol todo : forall (state prev diff : nums) (cur r : nums),
  value (until_settled next feed tol todo state prev diff (Some cur)) = Ok (Some r) -> r = cur \/ exists s, value (next s) = Ok r.
Proof.
  induction todo as [|todo IH]; intros state prev diff cur r E; cbn [until_settled] in E; apply step in E as (most & _ & E);
    destruct (ngt most tol); try (injection E as <-; left; reflexivity).
  apply step in E as (y & Ey & E). apply step in E as (s & _ & E). apply step in E as (d & _ & E).
  apply IH in E as [->|E]; [|right; exact E]. right. exists state. exact Ey.
Qed.
Lemma until_some next feed tol todo : forall (state prev diff cur : nums) c,
  value (until_settled next feed tol todo state prev diff (Some cur)) = Ok c -> exists r, c = Some r.
Proof.
  induction todo as [|todo IH]; intros state prev diff cur r E; cbn [until_settled] in E; apply step in E as (most & _ & E);
    destruct (ngt most tol); try (injection E as <-; eexists; reflexivity).
  apply step in E as (y & Ey & E). apply step in E as (s & _ & E). apply step in E as (d & _ & E). apply IH in E. exact E.
Qed.
Lemma until_next next feed tol todo (state prev cur r : nums) : 1 <= todo -> ngt PInf tol = true ->
  value (until_settled next feed tol todo state prev (float PInf) (Some cur)) = Ok (Some r) -> exists s, value (next s) = Ok r.
Proof.
  destruct todo as [|todo]; [lia|]. intros _ T E. cbn [until_settled] in E. apply step in E as (most & Em & E). injection Em as <-.
  rewrite T in E. apply step in E as (y & Ey & E). apply step in E as (s & _ & E). apply step in E as (d & _ & E).
  apply until_from in E as [->|E]; [exists state; exact Ey|exact E].
Qed.
Lemma tame_until next feed tol todo : (forall s, tame (next s)) -> (forall s, tame (feed s)) -> forall (state prev diff : nums) cur,
  tame (until_settled next feed tol todo state prev diff cur).
Proof.
  intros T T'.
  induction todo as [|todo IH]; intros state prev diff cur; cbn [until_settled]; (apply tame_bind; [apply tame_greatest|]; intros most _; destruct (ngt most tol); [|apply tame_ret]).
  - apply tame_ret.
  - apply tame_bind; [apply T|]. intros y _. apply tame_bind; [apply T'|]. intros s _. apply tame_bind; [unfold aabs; tame_tac|]. intros d _. apply IH.
Qed.

Section Freeboard.
Variables (Hm0 Hm0_swell Tmm10 q Ac cot_alpha beta B_berm db Dn50 gamma_f gamma_b gamma_v gamma_beta : nums) (g : num) (design : bool).

Local Notation with_f := (with_factors Hm0 Tmm10 Ac cot_alpha beta B_berm db Dn50 gamma_f gamma_b gamma_beta).
Definition discharge : M nums :=
  (q_diml <- q / asqrt (float g * apow Hm0 (lit 3)) ;;
   if design then apow q_diml (lit 1 / lit 0.857) else q_diml)%arr.
Definition freeboard_k (wind : bool) (max_iter : nat) (tol : num) (gb ksi b f : nums) : M nums :=
  q_diml <- discharge ;;
  Rc_diml <- ArrVanGent2025.Rc_diml_equation Hm0 Hm0_swell q_diml cot_alpha ksi f b gamma_v gb ;;
  if wind then
    last <- until_settled (ArrVanGent2025.wind_step Hm0 Hm0_swell q_diml Ac cot_alpha ksi f b gamma_v gb) value_of tol max_iter Rc_diml Rc_diml (float PInf) (Some Rc_diml) ;;
    bound last
  else Rc_diml.
Definition max_k (gb ksi b f : nums) : M nums := ArrVanGent2025.Rc_diml_max_equation Hm0 Hm0_swell q cot_alpha ksi f b gamma_v gb g_default.
Definition chk (u : nums) : M unit :=
  Rc <- (u * Hm0)%arr ;; ArrVanGent2025.check_validity_range Hm0 anan Tmm10 beta anan cot_alpha Dn50 Rc Ac anan B_berm db.

Lemma freeboard_form wind max_iter tol :
  value (ArrVanGent2025.calculate_dimensionless_crest_freeboard Hm0 Hm0_swell Tmm10 q Ac cot_alpha beta B_berm db Dn50 gamma_f gamma_b gamma_v gamma_beta g design wind max_iter tol)
  = value (x <- with_f (freeboard_k wind max_iter tol) ;; y <- with_f max_k ;; z <- stacked_min x y ;; m <- (stacked_min x y =? y)%arr ;; u <- value_of z ;; chk u ;; ret (u, m)).
Proof.
  rewrite <- (factors_pair Hm0 Tmm10 Ac cot_alpha beta B_berm db Dn50 gamma_f gamma_b gamma_beta).
  unfold ArrVanGent2025.calculate_dimensionless_crest_freeboard, with_factors, freeboard_k, max_k, discharge.
  assert (X : forall A (m : M A) B (f f' : A -> M B), (forall a, value (f a) = value (f' a)) -> value (bind m f) = value (bind m f')).
  { intros A m B f f' H. rewrite !value_bind. destruct (value m); auto. }
  do 4 (apply X; intros ?). rewrite !bind_assoc. apply X; intros qd. rewrite ?bind_assoc. apply X; intros qd'. rewrite ?bind_assoc. apply X; intros R.
  apply X; intros R'. apply X; intros Rmax. rewrite !value_bind. destruct (value (stacked_min R' Rmax)) as [z|] eqn:Ez; [|reflexivity].
  rewrite !value_bind.
  assert (EM : value (stacked_min z Rmax =? Rmax)%arr = value (stacked_min R' Rmax =? Rmax)%arr).
  { unfold cmp, lift2. rewrite !value_bind. change (arr num) with nums in *. rewrite Ez, (stacked_again _ _ _ Ez). reflexivity. }
  rewrite EM. destruct (value (stacked_min R' Rmax =? Rmax)%arr) as [m|]; [|reflexivity].
  unfold chk. change (value_of z) with (ret z). etransitivity; [|symmetry; apply f_equal, bind_ret_l]. cbv beta. rewrite bind_assoc. reflexivity.
Qed.

Section Given.
Variables (obs bs fs : list nums).
Hypothesis HO : factor_from gamma_beta [beta] obs.
Hypothesis HB : factor_from gamma_b [Ac; B_berm; db] bs.
Hypothesis HF : factor_from gamma_f [Dn50] fs.
Hypothesis HK : stone_known gamma_f Dn50.

(** The dimensionless discharge at a place, adjusted for design *)
Definition discharge_at (i : nat) : num :=
  let q_diml := (place i q / nsqrt (g * npow (place i Hm0) #3))%num in if design then npow q_diml (#1 / #0.857)%num else q_diml.
Definition lowest_at (i : nat) (gb ksi b f : num) : num :=
  VanGent2025.Rc_diml_max_equation (place i Hm0) (place i Hm0_swell) (place i q) (place i cot_alpha) ksi f b (place i gamma_v) gb CorePhysics.g_default.
Definition windless_at (i : nat) (gb ksi b f : num) : num -> num := windless (place i Hm0) (place i Hm0_swell) (place i cot_alpha) ksi f b (place i gamma_v) gb.

Lemma max_expression : expression ([Hm0; Hm0_swell; Tmm10; q; cot_alpha; gamma_v] ++ obs ++ bs ++ fs) (with_f max_k)
   (fun i => at_factors Hm0 Tmm10 Ac cot_alpha beta B_berm db Dn50 gamma_f gamma_b gamma_beta i (lowest_at i)).
Proof.
  change ([Hm0; Hm0_swell; Tmm10; q; cot_alpha; gamma_v] ++ obs ++ bs ++ fs) with (core Hm0 Hm0_swell Tmm10 q cot_alpha gamma_v obs bs fs).
  rewrite <- (app_nil_r (core _ _ _ _ _ _ _ _ _)).
  apply (expression_factors Hm0 Hm0_swell Tmm10 q Ac cot_alpha beta B_berm db Dn50 gamma_f gamma_b gamma_v gamma_beta obs bs fs HO HB HF HK [] _ lowest_at).
  intros. cbn [app]. unfold max_k. expression_tac.
Qed.

Lemma chk_tame u : tame (chk u).
Proof. unfold chk. apply tame_bind; [tame_tac|]. intros. apply check_tame. Qed.
Lemma chk_runs sh (u : nums) : Forall (fun a => stretches (shape a) sh) [Hm0; Tmm10; cot_alpha; Dn50; Ac; B_berm; db] -> stretches (shape u) sh -> value (chk u) = Ok tt.
Proof.
  intros F S. args_tac. unfold chk. change (arr num) with nums in *.
  assert (D : den sh (u * Hm0)%arr (fun i => place i u * place i Hm0)%num) by (autounfold with arrays; den_tac). destruct D as (Rc & E & SR & _).
  apply (steps _ _ Rc _ E). apply (check_runs sh). repeat (constructor; [assumption|]). constructor.
Qed.

Theorem C70_Rc_diml : forall max_iter tol,
  flagged_wider ([Hm0; Hm0_swell; Tmm10; q; cot_alpha; gamma_v] ++ obs ++ bs ++ fs) [] [Ac; B_berm; db; Dn50]
    (ArrVanGent2025.calculate_dimensionless_crest_freeboard Hm0 Hm0_swell Tmm10 q Ac cot_alpha beta B_berm db Dn50 gamma_f gamma_b gamma_v gamma_beta g design false max_iter tol)
    (fun at_ => value (VanGent2025.calculate_dimensionless_crest_freeboard (at_ Hm0) (at_ Hm0_swell) (at_ Tmm10) (at_ q) (at_ Ac) (at_ cot_alpha) (at_ beta)
       (at_ B_berm) (at_ db) (at_ Dn50) (at_ gamma_f) (at_ gamma_b) (at_ gamma_v) (at_ gamma_beta) g design false max_iter tol)).
Proof.
  intros max_iter tol.
  eapply (wider_intro _ [] [] _ (with_f (freeboard_k false max_iter tol)) (with_f max_k)
    (fun i => at_factors Hm0 Tmm10 Ac cot_alpha beta B_berm db Dn50 gamma_f gamma_b gamma_beta i (fun gb ksi b f => windless_at i gb ksi b f (discharge_at i)))
    (fun i => at_factors Hm0 Tmm10 Ac cot_alpha beta B_berm db Dn50 gamma_f gamma_b gamma_beta i (lowest_at i))
    value_of (fun _ z => z) chk).
  - apply freeboard_form.
  - change ([Hm0; Hm0_swell; Tmm10; q; cot_alpha; gamma_v] ++ obs ++ bs ++ fs) with (core Hm0 Hm0_swell Tmm10 q cot_alpha gamma_v obs bs fs).
    rewrite <- (app_nil_r (core _ _ _ _ _ _ _ _ _)). apply (expression_factors Hm0 Hm0_swell Tmm10 q Ac cot_alpha beta B_berm db Dn50 gamma_f gamma_b gamma_v gamma_beta obs bs fs HO HB HF HK [] _
      (fun i gb ksi b f => windless_at i gb ksi b f (discharge_at i))).
    intros. cbn [app]. unfold freeboard_k, discharge, windless_at, discharge_at. destruct design; expression_tac.
  - apply max_expression.
  - intros z. expression_tac.
  - intros a [].
  - intros a [].
  - apply chk_tame.
  - intros sh u F S. apply Forall_app in F as (F & G). apply core_forall in F as ((S1 & S2 & S3 & S4 & S5 & S6) & _). cbn [app] in G. args_tac. apply (chk_runs sh); [|assumption]. repeat (constructor; [assumption|]). constructor.
  - intros sh i F I. destruct (part_f Hm0 Tmm10 _ _ _ HF HK) as (_ & P). unfold VanGent2025.calculate_dimensionless_crest_freeboard. rewrite P, bind_ret_l.
    cbv zeta. rewrite value_bind, scalar_check. cbn [value ret snd]. do 2 f_equal. rewrite min_again. reflexivity.
Qed.

(** *** With the influence of wind *)

Definition windy_at (i n : nat) : num :=
  at_factors Hm0 Tmm10 Ac cot_alpha beta B_berm db Dn50 gamma_f gamma_b gamma_beta i
    (fun gb ksi b f => windy (windless_at i gb ksi b f) (place i Hm0) (place i Ac) (discharge_at i) n).

Lemma step_expression (qd ksi f b gb state : nums) :
  expression [state; Hm0; Hm0_swell; qd; Ac; cot_alpha; ksi; f; b; gamma_v; gb] (ArrVanGent2025.wind_step Hm0 Hm0_swell qd Ac cot_alpha ksi f b gamma_v gb state)
    (fun i => windless_at i (place i gb) (place i ksi) (place i b) (place i f)
                (place i qd / (#1 + #0.075 * ((place i state * place i Hm0 - place i Ac) / place i Hm0) * npow (place i qd) (- #0.3)))%num).
Proof. unfold windless_at. expression_tac. Qed.
Lemma first_expression (qd ksi f b gb : nums) :
  expression [Hm0; Hm0_swell; qd; cot_alpha; ksi; f; b; gamma_v; gb] (ArrVanGent2025.Rc_diml_equation Hm0 Hm0_swell qd cot_alpha ksi f b gamma_v gb)
    (fun i => windless_at i (place i gb) (place i ksi) (place i b) (place i f) (place i qd)).
Proof. unfold windless_at. expression_tac. Qed.
Lemma discharge_expression : expression [q; Hm0] discharge discharge_at.
Proof. unfold discharge, discharge_at. destruct design; expression_tac. Qed.

Lemma wind_tame max_iter tol : tame (with_f (freeboard_k true max_iter tol)).
Proof.
  destruct (part_beta _ _ _ HO) as (_ & _ & T1). destruct (part_b Hm0 Tmm10 _ _ _ _ _ HB) as (_ & _ & T2).
  destruct (part_f Hm0 Tmm10 _ _ _ HF HK) as ((_ & _ & T3) & _).
  unfold with_factors. apply tame_bind; [exact T1|]. intros gb _. apply tame_bind; [autounfold with arrays; tame_tac|]. intros ksi _.
  apply tame_bind; [exact T2|]. intros b _. apply tame_bind; [exact T3|]. intros f _. unfold freeboard_k.
  apply tame_bind; [apply discharge_expression|]. intros qd _. apply tame_bind; [apply first_expression|]. intros R _.
  apply tame_bind. { apply tame_until; [intros s; apply step_expression|intros s; apply tame_value]. }
  intros c E. destruct (until_some _ _ _ _ _ _ _ _ _ E) as (r & ->). apply tame_ret.
Qed.

Lemma wind_parts max_iter tol x : value (with_f (freeboard_k true max_iter tol)) = Ok x ->
  exists gb ksi b f qd R, value (ArrVanGent2025.factor_beta beta gamma_beta) = Ok gb
   /\ value (calculate_Iribarren_number_ksi Hm0 Tmm10 cot_alpha) = Ok ksi
   /\ value (ArrVanGent2025.factor_b Hm0 Tmm10 Ac B_berm db gamma_b) = Ok b
   /\ value (ArrVanGent2025.factor_f Hm0 Tmm10 Dn50 gamma_f) = Ok f
   /\ value discharge = Ok qd
   /\ value (ArrVanGent2025.Rc_diml_equation Hm0 Hm0_swell qd cot_alpha ksi f b gamma_v gb) = Ok R
   /\ value (until_settled (ArrVanGent2025.wind_step Hm0 Hm0_swell qd Ac cot_alpha ksi f b gamma_v gb) value_of tol max_iter R R (float PInf) (Some R)) = Ok (Some x).
Proof.
  intros E. unfold with_factors in E. apply step in E as (gb & Eg & E). apply step in E as (ksi & Ek & E). apply step in E as (b & Eb & E). apply step in E as (f & Ef & E).
  unfold freeboard_k in E. apply step in E as (qd & Eq & E). apply step in E as (R & ER & E). apply step in E as (c & Ec & E).
  destruct c as [r|]; [|discriminate E]. injection E as <-. exists gb, ksi, b, f, qd, R. auto 12.
Qed.

Lemma parts_at sh : Forall (fun a => stretches (shape a) sh) (core Hm0 Hm0_swell Tmm10 q cot_alpha gamma_v obs bs fs) ->
  exists gb ksi b f qd, value (ArrVanGent2025.factor_beta beta gamma_beta) = Ok gb
   /\ value (calculate_Iribarren_number_ksi Hm0 Tmm10 cot_alpha) = Ok ksi
   /\ value (ArrVanGent2025.factor_b Hm0 Tmm10 Ac B_berm db gamma_b) = Ok b
   /\ value (ArrVanGent2025.factor_f Hm0 Tmm10 Dn50 gamma_f) = Ok f
   /\ value discharge = Ok qd
   /\ Forall (fun a => stretches (shape a) sh) [gb; ksi; b; f; qd]
   /\ Forall (fun a : nums => Exists (fun s => stretches (shape a) s) (map shape [Hm0; Hm0_swell; qd; cot_alpha; ksi; f; b; gamma_v; gb])) (core Hm0 Hm0_swell Tmm10 q cot_alpha gamma_v obs bs fs)
   /\ forall i, inside sh i -> place i qd = discharge_at i
      /\ forall A (k : num -> num -> num -> num -> A), k (place i gb) (place i ksi) (place i b) (place i f) = at_factors Hm0 Tmm10 Ac cot_alpha beta B_berm db Dn50 gamma_f gamma_b gamma_beta i k.
Proof.
  intros F. apply core_forall in F as ((S1 & S2 & S3 & S4 & S5 & S6) & Fo & Fb & Ff).
  destruct (part_beta _ _ _ HO) as (D1 & U1 & _). destruct (part_b Hm0 Tmm10 _ _ _ _ _ HB) as (D2 & U2 & _).
  destruct (part_f Hm0 Tmm10 _ _ _ HF HK) as ((D3 & U3 & _) & _).
  destruct (D1 sh Fo) as (gb & Eg & Sg & Vg).
  assert (X : den sh (calculate_Iribarren_number_ksi Hm0 Tmm10 cot_alpha) (fun i => CorePhysics.calculate_Iribarren_number_ksi (place i Hm0) (place i Tmm10) (place i cot_alpha))) by (autounfold with arrays; den_tac).
  destruct X as (ksi & Ek & Sk & Vk).
  destruct (D2 sh) as (b & Eb & Sb & Vb); [constructor; [exact S1|constructor; [exact S3|exact Fb]]|].
  destruct (D3 sh) as (f & Ef & Sf & Vf); [constructor; [exact S1|constructor; [exact S3|exact Ff]]|].
  destruct discharge_expression as (Dq & Uq & _). destruct (Dq sh) as (qd & Eq & Sq & Vq); [constructor; [exact S4|constructor; [exact S1|constructor]]|].
  exists gb, ksi, b, f, qd. do 5 (split; [assumption|]). split; [repeat (constructor; [assumption|]); constructor|]. split.
  - assert (UK : uses (calculate_Iribarren_number_ksi Hm0 Tmm10 cot_alpha) [shape Tmm10]) by (autounfold with arrays; eapply uses_incl; [uses_tac|incl_tac]).
    specialize (UK ksi Ek). inversion UK as [|? ? UT _]; subst. specialize (U1 gb Eg). specialize (U2 b Eb). specialize (U3 f Ef). specialize (Uq qd Eq). inversion Uq as [|? ? Uq1 _]; subst.
    apply Forall_forall. intros a I. apply Exists_exists. cbn [map].
    assert (Z : forall l (r : nums), Forall (fun s => stretches s (shape r)) (map shape l) -> In a l -> stretches (shape a) (shape r)).
    { intros l r Fl Il. rewrite Forall_forall in Fl. apply Fl, in_map, Il. }
    unfold core in I. rewrite !in_app_iff in I. cbn [In] in I. destruct I as [[<-|[<-|[<-|[<-|[<-|[<-|[]]]]]]]|[I|[I|I]]].
    + exists (shape Hm0). split; [cbn; auto 12|apply stretches_refl].
    + exists (shape Hm0_swell). split; [cbn; auto 12|apply stretches_refl].
    + exists (shape ksi). split; [cbn; auto 12|exact UT].
    + exists (shape qd). split; [cbn; auto 12|exact Uq1].
    + exists (shape cot_alpha). split; [cbn; auto 12|apply stretches_refl].
    + exists (shape gamma_v). split; [cbn; auto 12|apply stretches_refl].
    + exists (shape gb). split; [cbn; auto 12|apply (Z obs); assumption].
    + exists (shape b). split; [cbn; auto 12|apply (Z bs); assumption].
    + exists (shape f). split; [cbn; auto 12|apply (Z fs); assumption].
  - intros i I. split; [unfold place at 1; rewrite Vq by exact I; reflexivity|]. intros A k. unfold at_factors.
    unfold place at 1 2 3 4. rewrite Vg, Vk, Vb, Vf by exact I. reflexivity.
Qed.

Lemma ys_windy m (fb : num -> num) (H A Q : num) :
  ys (fun R => fb (Q / (#1 + #0.075 * ((R * H - A) / H) * npow Q (- #0.3)))%num) (fun R => R) (fb Q) m = windy fb H A Q (S m).
Proof. induction m as [|m IH]; [reflexivity|]. cbn [ys]. rewrite IH. reflexivity. Qed.
Lemma iterations_until (st : num -> num) tol n : forall R d, until1 st (fun R => R) tol n R R d (Some R) = Some (VanGent2025.wind_iterations st tol n R d).
Proof.
  induction n as [|n IH]; intros R d; cbn [VanGent2025.wind_iterations until1]; destruct (ngt d tol) eqn:T; try reflexivity.
  cbv zeta. rewrite IH. reflexivity.
Qed.

Theorem C70_Rc_diml_wind : forall sh max_iter tol,
  sh <> Some 0 -> common ([Hm0; Hm0_swell; Tmm10; q; cot_alpha; gamma_v] ++ obs ++ bs ++ fs) sh -> stretches (shape Ac) sh ->
  compatible (([Hm0; Hm0_swell; Tmm10; q; cot_alpha; gamma_v] ++ obs ++ bs ++ fs) ++ [Ac; B_berm; db; Dn50]) ->
  1 <= max_iter -> ngt PInf tol = true ->
  exists n r m, settles sh max_iter tol (fun i => windy_at i 0) (fun i k => Ok (windy_at i k)) n
  /\ value (ArrVanGent2025.calculate_dimensionless_crest_freeboard Hm0 Hm0_swell Tmm10 q Ac cot_alpha beta B_berm db Dn50 gamma_f gamma_b gamma_v gamma_beta g design true max_iter tol) = Ok (r, m)
  /\ shape r = sh /\ shape m = sh
  /\ forall i, inside sh i -> exists b, at_ m i = Some b
     /\ value (VanGent2025.calculate_dimensionless_crest_freeboard (place i Hm0) (place i Hm0_swell) (place i Tmm10) (place i q) (place i Ac) (place i cot_alpha) (place i beta)
         (place i B_berm) (place i db) (place i Dn50) (place i gamma_f) (place i gamma_b) (place i gamma_v) (place i gamma_beta) g design true n no_tolerance) = Ok (place i r, b).
Proof.
  intros sh max_iter tol N C SA (t & K) M T.
  change ([Hm0; Hm0_swell; Tmm10; q; cot_alpha; gamma_v] ++ obs ++ bs ++ fs) with (core Hm0 Hm0_swell Tmm10 q cot_alpha gamma_v obs bs fs) in C.
  destruct (parts_at sh (proj1 C)) as (gb & ksi & b & f & qd & Eg & Ek & Eb & Ef & Eq & P & L & V). change (arr num) with nums in *. 
  pose proof (proj1 C) as F. apply core_forall in F as ((S1 & S2 & S3 & S4 & S5 & S6) & _). args_tac. change (arr num) with nums in *.
  destruct (first_expression qd ksi f b gb) as (DR & _). destruct (DR sh) as (R & ER & SR & VR); [repeat (constructor; [assumption|]); constructor|]. change (arr num) with nums in *.
  pose (nx := fun i R => windless_at i (place i gb) (place i ksi) (place i b) (place i f)
                (place i qd / (#1 + #0.075 * ((R * place i Hm0 - place i Ac) / place i Hm0) * npow (place i qd) (- #0.3)))%num).
  pose (s0 := fun i => windless_at i (place i gb) (place i ksi) (place i b) (place i f) (place i qd)).
  assert (YW : forall i m, inside sh i -> ys (nx i) (fun R => R) (s0 i) m = windy_at i (S m)).
  { intros i m I. destruct (V i I) as (Vq & Va). unfold nx, s0. rewrite ys_windy. unfold windy_at. rewrite <- Va, Vq. reflexivity. }
  assert (ND : forall a v, stretches (shape a) sh -> den sh (value_of a) v -> den sh (ArrVanGent2025.wind_step Hm0 Hm0_swell qd Ac cot_alpha ksi f b gamma_v gb a) (fun i => nx i (v i))).
  { intros a v Sa Da. destruct (step_expression qd ksi f b gb a) as (D & _). eapply den_ext; [apply D; repeat (constructor; [assumption|]); constructor|].
    intros i I. cbv beta. rewrite (den_place _ _ _ i Da I). reflexivity. }
  assert (NU : forall a, uses (ArrVanGent2025.wind_step Hm0 Hm0_swell qd Ac cot_alpha ksi f b gamma_v gb a) (map shape [Hm0; Hm0_swell; qd; cot_alpha; ksi; f; b; gamma_v; gb])).
  { intros a. destruct (step_expression qd ksi f b gb a) as (_ & U & _). eapply uses_incl; [exact U|]. apply incl_map. intros z. cbn [In]. tauto. }
  assert (DR0 : den sh (value_of R) s0) by (exists R; auto).
  destruct (loop_settles sh N _ value_of nx (fun _ R => R) _ ND (fun a v _ D => D) NU tol s0 s0 (fun _ => PInf) (fun i k => Ok (windy_at i k))
    (fun _ _ => eq_refl)) with (max_iter := max_iter) (state := R) (prev := R) (diff := float PInf) (cur := Some R) as (n & x & St & Ex & Dx & Ux & Nx); try assumption.
  { intros i n I Ln _. rewrite YW by exact I. do 2 f_equal. lia. }
  { exists (float PInf). split; [reflexivity|]. split; [apply stretches_none|]. reflexivity. }
  assert (Sx : shape x = sh).
  { destruct Dx as (x' & E' & S' & _). injection E' as <-. apply stretches_antisym; [exact S'|]. destruct C as (_ & [->|C]); [apply stretches_none|].
    apply Exists_exists in C as (a & I & <-). rewrite Forall_forall in L. specialize (L a I). apply Exists_exists in L as (s & Is & Ss).
    rewrite Forall_forall in Ux. eapply stretches_trans; [exact Ss|]. apply Ux, Is. }
  assert (W : whole sh (with_factors Hm0 Tmm10 Ac cot_alpha beta B_berm db Dn50 gamma_f gamma_b gamma_beta (freeboard_k true max_iter tol)) (fun i => windy_at i n)).
  { exists x. split; [|split; [exact Sx|]].
    - unfold with_factors. apply (steps _ _ gb _ Eg). apply (steps _ _ ksi _ Ek). apply (steps _ _ b _ Eb). apply (steps _ _ f _ Ef). unfold freeboard_k.
      apply (steps _ _ qd _ Eq). apply (steps _ _ R _ ER). apply (steps _ _ (Some x) _ Ex). reflexivity.
    - intros i I. destruct Dx as (x' & E' & _ & Vx). injection E' as <-. rewrite Vx by exact I. rewrite YW by exact I. do 2 f_equal. pose proof (proj1 St). lia. }
  destruct (stack_gives sh _ _ _ _ W (expression_whole _ _ _ max_expression sh C)) as (r & m & E & Sr & Sm & Vr).
  exists n, r, m. split.
  { destruct St as (A & B & D). split; [exact A|]. 
    assert (GO : forall k, goes_on sh tol s0 (fun i k => Ok (windy_at i k)) k <-> goes_on sh tol (fun i => windy_at i 0) (fun i k => Ok (windy_at i k)) k).
    { assert (CH : forall i k, inside sh i -> change s0 (fun i k => Ok (windy_at i k)) i k = change (fun i => windy_at i 0) (fun i k => Ok (windy_at i k)) i k).
      { intros i [|[|k]] I; try reflexivity. cbn [change]. replace (s0 i) with (windy_at i 0); [reflexivity|]. destruct (V i I) as (Vq & Va). unfold s0, windy_at. rewrite <- Va, Vq. reflexivity. }
      intros k. unfold goes_on. split; intros (A1 & i & I & A2); (split; [intros j J; specialize (A1 j J); rewrite CH in * by exact J; exact A1|exists i; split; [exact I|rewrite CH in * by exact I; exact A2]]). }
    split; [intros k Kk; apply GO, B, Kk|]. destruct D as [->|D]; [left; reflexivity|right; intros X; apply D, GO, X]. }
  split; [|split; [exact Sr|split; [exact Sm|]]].
  - rewrite freeboard_form. unfold stack in E. apply step in E as (x1 & E1 & E). apply (steps _ _ x1 _ E1). apply step in E as (y1 & E2 & E). apply (steps _ _ y1 _ E2).
    apply step in E as (z1 & E3 & E). apply (steps _ _ z1 _ E3). apply step in E as (m1 & E4 & E). apply (steps _ _ m1 _ E4). injection E as -> ->.
    apply (steps (value_of r) _ r _ eq_refl). rewrite value_bind, (chk_runs t r); [reflexivity| |].
    + apply Forall_app in K as (K1 & K2). apply core_forall in K1 as ((A1 & A2 & A3 & A4 & A5 & A6) & _). clear -K2 A1 A3 A5. args_tac. repeat (constructor; [assumption|]). constructor.
    + rewrite Sr. eapply common_stretches; [exact C|]. apply Forall_app in K. apply K.
  - intros i I. destruct (Vr i I) as (Vz & Vm). exists (neqb (nmin (windy_at i n) (at_factors Hm0 Tmm10 Ac cot_alpha beta B_berm db Dn50 gamma_f gamma_b gamma_beta i (lowest_at i))) (at_factors Hm0 Tmm10 Ac cot_alpha beta B_berm db Dn50 gamma_f gamma_b gamma_beta i (lowest_at i))).
    split; [exact Vm|]. destruct (part_f Hm0 Tmm10 _ _ _ HF HK) as (_ & PF). unfold VanGent2025.calculate_dimensionless_crest_freeboard. rewrite PF, bind_ret_l.
    cbv zeta. rewrite value_bind, scalar_check. cbn [value ret snd]. f_equal. rewrite min_again.
    assert (X : forall R st, R = s0 i -> st = nx i -> VanGent2025.wind_iterations st no_tolerance n R PInf = windy_at i n).
    { intros R0 st -> ->. assert (Y : Some (VanGent2025.wind_iterations (nx i) no_tolerance n (s0 i) PInf) = Some (windy_at i n)); [|injection Y as Y; exact Y].
      rewrite <- iterations_until. etransitivity; [apply (until1_runs (nx i) (fun R => R) (s0 i) (s0 i) PInf n); [reflexivity|intros k Kk; apply (Nx i k I Kk)]|].
      destruct n as [|n']; [destruct St as (St & _); lia|]. rewrite YW by exact I. reflexivity. }
    destruct (V i I) as (Vq & Va).
    assert (Y : forall R st, R = s0 i -> st = nx i -> forall l, l = at_factors Hm0 Tmm10 Ac cot_alpha beta B_berm db Dn50 gamma_f gamma_b gamma_beta i (lowest_at i) ->
      (nmin (VanGent2025.wind_iterations st no_tolerance n R PInf) l, neqb (nmin (VanGent2025.wind_iterations st no_tolerance n R PInf) l) l) = 
      (place i r, neqb (nmin (windy_at i n) (at_factors Hm0 Tmm10 Ac cot_alpha beta B_berm db Dn50 gamma_f gamma_b gamma_beta i (lowest_at i))) (at_factors Hm0 Tmm10 Ac cot_alpha beta B_berm db Dn50 gamma_f gamma_b gamma_beta i (lowest_at i)))).
    { intros R0 st -> -> l ->. rewrite X by reflexivity. f_equal. unfold place. rewrite Vz. reflexivity. }
    cbn [fst snd] in Y. apply Y; [| |reflexivity].
    + unfold s0. rewrite Vq. rewrite (Va _ (fun gb ksi b f => windless_at i gb ksi b f (discharge_at i))). reflexivity.
    + unfold nx. rewrite Vq. rewrite (Va _ (fun gb ksi b f R => windless_at i gb ksi b f (discharge_at i / (#1 + #0.075 * ((R * place i Hm0 - place i Ac) / place i Hm0) * npow (discharge_at i) (- #0.3)))%num)). reflexivity.
Qed.

(** When the crest has more places than the other arguments, or there is no place at all *)
Theorem C70_Rc_diml_wind_stops : forall max_iter tol, 1 <= max_iter -> ngt PInf tol = true ->
  ~ (exists sh, sh <> Some 0 /\ common ([Hm0; Hm0_swell; Tmm10; q; cot_alpha; gamma_v] ++ obs ++ bs ++ fs) sh /\ stretches (shape Ac) sh) ->
  value (ArrVanGent2025.calculate_dimensionless_crest_freeboard Hm0 Hm0_swell Tmm10 q Ac cot_alpha beta B_berm db Dn50 gamma_f gamma_b gamma_v gamma_beta g design true max_iter tol) = Err ValueError.
Proof.
  intros max_iter tol M T H. rewrite freeboard_form. apply tame_raises.
  - apply tame_bind; [apply wind_tame|]. intros x _. apply tame_bind; [apply max_expression|]. intros y _. unfold stacked_min. apply tame_bind; [tame_tac|]. intros z _.
    apply tame_bind; [tame_tac|]. intros m _. apply tame_bind; [apply tame_value|]. intros u _. apply tame_bind; [apply chk_tame|]. intros [] _. apply tame_ret.
  - intros (u & m) E. apply H. apply step in E as (x & Ex & E). apply step in E as (y & Ey & E). apply step in E as (z & Ez & _).
    pose proof (stacked_shapes nmin x y z Ez) as Sxy. pose proof (expression_shape _ _ _ _ max_expression Ey) as C. rewrite <- Sxy in C.
    destruct (wind_parts _ _ _ Ex) as (gb & ksi & b & f & qd & R & Eg & Ek & Eb & Ef & Eq & ER & EL).
    destruct (until_next _ _ _ _ _ _ _ _ M T EL) as (s & Es). destruct (step_expression qd ksi f b gb s) as (_ & U & _). specialize (U x Es).
    cbn [map] in U. repeat match goal with U : Forall _ (_ :: _) |- _ => inversion U; subst; clear U end.
    exists (shape x). split; [|split; [exact C|assumption]]. intros Z. rewrite Z in *.
    destruct (parts_at (Some 0) (proj1 C)) as (gb' & ksi' & b' & f' & qd' & Eg' & Ek' & Eb' & Ef' & Eq' & P & L & _). change (arr num) with nums in *.
    rewrite Eg in Eg'. injection Eg' as <-. pose proof (eq_trans (eq_sym Ek) Ek') as J; injection J as <-. rewrite Eb in Eb'. injection Eb' as <-. rewrite Ef in Ef'. injection Ef' as <-. rewrite Eq in Eq'. injection Eq' as <-.
    pose proof (proj1 C) as F. apply core_forall in F as ((S1 & S2 & S3 & S4 & S5 & S6) & _). args_tac. change (arr num) with nums in *.
    destruct (first_expression qd ksi f b gb) as (DR & _). destruct (DR (Some 0)) as (R' & ER' & SR & VR); [repeat (constructor; [assumption|]); constructor|].
    pose proof (eq_trans (eq_sym ER) ER') as J; injection J as <-.
    assert (D : den (Some 0) (value_of R) (fun i => place i R)) by (apply den_leaf; exact SR).
    destruct (step_expression qd ksi f b gb R) as (DS & US & _).
    assert (XE : exists a, In a [Hm0; Hm0_swell; qd; cot_alpha; ksi; f; b; gamma_v; gb] /\ shape a = Some 0).
    { destruct C as (CF & [CC|CC]); [discriminate CC|]. apply Exists_exists in CC as (a & I & Sa). change (arr num) with nums in *. rewrite Forall_forall in L. specialize (L a I).
      apply Exists_exists in L as (s' & Is & Ss). apply in_map_iff in Is as (a' & <- & Ia). exists a'. split; [exact Ia|]. rewrite Sa in Ss.
      apply stretches_antisym; [|exact Ss]. cbn [In] in Ia. destruct Ia as [<-|[<-|[<-|[<-|[<-|[<-|[<-|[<-|[<-|[]]]]]]]]]]; assumption. }
    destruct XE as (a & Ia & Sa).
    assert (Z0 : value (until_settled (ArrVanGent2025.wind_step Hm0 Hm0_swell qd Ac cot_alpha ksi f b gamma_v gb) value_of tol max_iter R R (Sc PInf) (Some R)) = Err ValueError).
    { eapply (loop_empty _ _ tol max_iter [a]).
      - apply DS. repeat (constructor; [assumption|]). constructor.
      - intros w _. exists w. reflexivity.
      - exact US.
      - exact D.
      - exact M.
      - exact T.
      - split; [constructor; [rewrite Sa; apply stretches_refl|constructor]|]. right. constructor. exact Sa.
      - intros w [<-|[]]. cbn [map]. cbn [In] in Ia. destruct Ia as [<-|[<-|[<-|[<-|[<-|[<-|[<-|[<-|[<-|[]]]]]]]]]]; cbn [In]; auto 14. }
    change (float PInf) with (Sc PInf) in EL. rewrite EL in Z0. discriminate Z0.
Qed.
End Given.
End Freeboard.

(** ** The freeboard itself *)

Section Rc.
Variables (Hm0 Hm0_swell Tmm10 q Ac cot_alpha beta B_berm db Dn50 gamma_f gamma_b gamma_v gamma_beta : nums) (design : bool).
Variables (obs bs fs : list nums).
Hypothesis HO : factor_from gamma_beta [beta] obs.
Hypothesis HB : factor_from gamma_b [Ac; B_berm; db] bs.
Hypothesis HF : factor_from gamma_f [Dn50] fs.
Hypothesis HK : stone_known gamma_f Dn50.

Theorem C70_Rc :
  flagged_wider ([Hm0; Hm0_swell; Tmm10; q; cot_alpha; gamma_v] ++ obs ++ bs ++ fs) [] [Ac; B_berm; db; Dn50]
    (ArrVanGent2025.calculate_crest_freeboard_Rc Hm0 Hm0_swell Tmm10 q Ac cot_alpha beta B_berm db Dn50 gamma_f gamma_b gamma_v gamma_beta design false)
    (fun at_ => value (VanGent2025.calculate_crest_freeboard_Rc (at_ Hm0) (at_ Hm0_swell) (at_ Tmm10) (at_ q) (at_ Ac) (at_ cot_alpha) (at_ beta)
       (at_ B_berm) (at_ db) (at_ Dn50) (at_ gamma_f) (at_ gamma_b) (at_ gamma_v) (at_ gamma_beta) design false)).
Proof.
  unfold ArrVanGent2025.calculate_crest_freeboard_Rc. eapply wider_times; [apply C70_Rc_diml; eassumption| |].
  - intros sh F. apply core_forall in F as ((S1 & _) & _). apply den_leaf. exact S1.
  - intros sh i x b _ _ E. cbv beta in *. unfold VanGent2025.calculate_crest_freeboard_Rc. rewrite value_bind.
    change CorePhysics.g_default with #9.81%num. rewrite E. reflexivity.
Qed.

Theorem C70_Rc_wind : forall sh,
  sh <> Some 0 -> common ([Hm0; Hm0_swell; Tmm10; q; cot_alpha; gamma_v] ++ obs ++ bs ++ fs) sh -> stretches (shape Ac) sh ->
  compatible (([Hm0; Hm0_swell; Tmm10; q; cot_alpha; gamma_v] ++ obs ++ bs ++ fs) ++ [Ac; B_berm; db; Dn50]) ->
  exists n r m, settles sh VanGent2025.max_iter_default VanGent2025.tolerance_default
      (fun i => windy_at Hm0 Hm0_swell Tmm10 q Ac cot_alpha beta B_berm db Dn50 gamma_f gamma_b gamma_v gamma_beta #9.81%num design i 0)
      (fun i k => Ok (windy_at Hm0 Hm0_swell Tmm10 q Ac cot_alpha beta B_berm db Dn50 gamma_f gamma_b gamma_v gamma_beta #9.81%num design i k)) n
  /\ value (ArrVanGent2025.calculate_crest_freeboard_Rc Hm0 Hm0_swell Tmm10 q Ac cot_alpha beta B_berm db Dn50 gamma_f gamma_b gamma_v gamma_beta design true) = Ok (r, m)
  /\ shape r = sh /\ shape m = sh
  /\ forall i, inside sh i -> exists x b, at_ m i = Some b /\ place i r = (x * place i Hm0)%num
     /\ value (VanGent2025.calculate_dimensionless_crest_freeboard (place i Hm0) (place i Hm0_swell) (place i Tmm10) (place i q) (place i Ac) (place i cot_alpha) (place i beta)
         (place i B_berm) (place i db) (place i Dn50) (place i gamma_f) (place i gamma_b) (place i gamma_v) (place i gamma_beta) #9.81%num design true n no_tolerance) = Ok (x, b).
Proof.
  intros sh N C SA K.
  destruct (C70_Rc_diml_wind Hm0 Hm0_swell Tmm10 q Ac cot_alpha beta B_berm db Dn50 gamma_f gamma_b gamma_v gamma_beta #9.81%num design obs bs fs HO HB HF HK sh
     VanGent2025.max_iter_default VanGent2025.tolerance_default N C SA K) as (n & r & m & St & E & Sr & Sm & V).
  { unfold VanGent2025.max_iter_default. lia. } { reflexivity. }
  pose proof (proj1 C) as F. apply core_forall in F as ((S1 & _) & _).
  assert (Dr : den sh (value_of r) (fun i => place i r)) by (apply den_leaf; rewrite Sr; apply stretches_refl).
  destruct (den_lift2 sh nmul _ _ _ _ Dr (den_leaf sh Hm0 S1)) as (z & Ez & Sz & Vz).
  exists n, z, m. split; [exact St|]. split; [|split; [|split; [exact Sm|]]].
  - unfold ArrVanGent2025.calculate_crest_freeboard_Rc. apply (steps _ _ (r, m) _ E). apply (steps _ _ z _ Ez). reflexivity.
  - apply stretches_antisym; [exact Sz|]. rewrite <- Sr. pose proof (uses_lift2 nmul (value_of r) Hm0 _ _ (uses_leaf r) (uses_nothing Hm0) z Ez) as UU. inversion UU; assumption.
  - intros i I. destruct (V i I) as (b & Eb & Sb). exists (place i r), b. split; [exact Eb|]. split; [unfold place at 1; rewrite (Vz i I); reflexivity|exact Sb].
Qed.

Theorem C70_Rc_wind_stops :
  ~ (exists sh, sh <> Some 0 /\ common ([Hm0; Hm0_swell; Tmm10; q; cot_alpha; gamma_v] ++ obs ++ bs ++ fs) sh /\ stretches (shape Ac) sh) ->
  value (ArrVanGent2025.calculate_crest_freeboard_Rc Hm0 Hm0_swell Tmm10 q Ac cot_alpha beta B_berm db Dn50 gamma_f gamma_b gamma_v gamma_beta design true) = Err ValueError.
Proof.
  intros H. unfold ArrVanGent2025.calculate_crest_freeboard_Rc. rewrite value_bind.
  rewrite (C70_Rc_diml_wind_stops Hm0 Hm0_swell Tmm10 q Ac cot_alpha beta B_berm db Dn50 gamma_f gamma_b gamma_v gamma_beta #9.81%num design obs bs fs HO HB HF HK); [reflexivity| |reflexivity|exact H].
  unfold VanGent2025.max_iter_default. lia.
Qed.
End Rc.

(** ** Arguments that stop the call *)

(** Calls of the four functions; [r] is the freeboard or the discharge *)
Definition four (P : M (nums * arr bool) -> Prop) (Hm0 Hm0_swell Tmm10 r Ac cot_alpha beta B_berm db Dn50 gamma_f gamma_b gamma_v gamma_beta : nums) (g : num)
    (design wind : bool) (max_iter : nat) (tol : num) : Prop :=
  P (ArrVanGent2025.calculate_dimensionless_overtopping_discharge_q Hm0 Hm0_swell Tmm10 r Ac cot_alpha beta B_berm db Dn50 gamma_f gamma_b gamma_v gamma_beta design wind)
  /\ P (ArrVanGent2025.calculate_overtopping_discharge_q Hm0 Hm0_swell Tmm10 r Ac cot_alpha beta B_berm db Dn50 gamma_f gamma_b gamma_v gamma_beta g design wind)
  /\ P (ArrVanGent2025.calculate_dimensionless_crest_freeboard Hm0 Hm0_swell Tmm10 r Ac cot_alpha beta B_berm db Dn50 gamma_f gamma_b gamma_v gamma_beta g design wind max_iter tol)
  /\ P (ArrVanGent2025.calculate_crest_freeboard_Rc Hm0 Hm0_swell Tmm10 r Ac cot_alpha beta B_berm db Dn50 gamma_f gamma_b gamma_v gamma_beta design wind).

Lemma tame_factor_b Hm0 Tmm10 Ac B_berm db gamma_b : tame (ArrVanGent2025.factor_b Hm0 Tmm10 Ac B_berm db gamma_b).
Proof. unfold ArrVanGent2025.factor_b. autounfold with arrays. tame_tac. Qed.
Lemma tame_factor_beta beta gamma_beta : tame (ArrVanGent2025.factor_beta beta gamma_beta).
Proof. unfold ArrVanGent2025.factor_beta. autounfold with arrays. tame_tac. Qed.
Lemma tame_factor_f Hm0 Tmm10 Dn50 gamma_f : tame (ArrVanGent2025.factor_f Hm0 Tmm10 Dn50 gamma_f).
Proof. unfold ArrVanGent2025.factor_f. autounfold with arrays. tame_tac. Qed.
Lemma tame_then {A B} (m : M A) (k : A -> M B) : tame m -> (forall a, value (k a) = Err ValueError) -> value (x <- m ;; k x) = Err ValueError.
Proof. intros T H. rewrite value_bind. destruct (value m) as [a|e] eqn:E; [apply H|]. f_equal. apply T, E. Qed.

Lemma factors_stop {A} Hm0 Tmm10 Ac cot_alpha beta B_berm db Dn50 gamma_f gamma_b gamma_beta (k : nums -> nums -> nums -> nums -> M A) :
  (forall x, ~ one_number gamma_beta x) \/ (forall x, ~ one_number gamma_b x) \/ (forall x, ~ one_number gamma_f x) \/ ~ stone_known gamma_f Dn50 ->
  value (with_factors Hm0 Tmm10 Ac cot_alpha beta B_berm db Dn50 gamma_f gamma_b gamma_beta k) = Err ValueError.
Proof.
  intros H. unfold with_factors. destruct H as [H|H].
  { unfold ArrVanGent2025.factor_beta. rewrite value_bind, several_is_nan by exact H. reflexivity. }
  apply tame_then; [apply tame_factor_beta|]. intros gb. apply tame_then; [autounfold with arrays; tame_tac|]. intros ksi. destruct H as [H|H].
  { unfold ArrVanGent2025.factor_b. rewrite value_bind, several_is_nan by exact H. reflexivity. }
  apply tame_then; [apply tame_factor_b|]. intros b.
  assert (F : value (ArrVanGent2025.factor_f Hm0 Tmm10 Dn50 gamma_f) = Err ValueError).
  { unfold ArrVanGent2025.factor_f. destruct H as [H|H]; [apply several_is_nan, H|].
    assert (O : forall a : nums, (exists x, one_number a x) \/ forall x, ~ one_number a x).
    { intros [x|[|x [|y l]]]; first [left; exists x; reflexivity|right; intros z Z; discriminate Z]. }
    destruct (O gamma_f) as [(x & Ox)|N]; [|apply several_is_nan, N]. rewrite (one_is_nan _ _ Ox), bind_ret_l.
    destruct (isnan x) eqn:Nx; [|exfalso; apply H; left; exists x; auto].
    destruct (O Dn50) as [(d & Od)|N]; [|apply several_is_nan, N]. rewrite (one_is_nan _ _ Od), bind_ret_l.
    destruct (isnan d) eqn:Nd; [reflexivity|]. exfalso. apply H. right. exists d. auto. }
  rewrite value_bind, F. reflexivity.
Qed.

Theorem C70_stops : forall Hm0 Hm0_swell Tmm10 r Ac cot_alpha beta B_berm db Dn50 gamma_f gamma_b gamma_v gamma_beta g design wind max_iter tol,
  (forall x, ~ one_number gamma_beta x) \/ (forall x, ~ one_number gamma_b x) \/ (forall x, ~ one_number gamma_f x) \/ ~ stone_known gamma_f Dn50 ->
  four (fun call => value call = Err ValueError) Hm0 Hm0_swell Tmm10 r Ac cot_alpha beta B_berm db Dn50 gamma_f gamma_b gamma_v gamma_beta g design wind max_iter tol.
Proof.
  intros Hm0 Hm0_swell Tmm10 r Ac cot_alpha beta B_berm db Dn50 gamma_f gamma_b gamma_v gamma_beta g design wind max_iter tol H.
  pose proof (fun A k => @factors_stop A Hm0 Tmm10 Ac cot_alpha beta B_berm db Dn50 gamma_f gamma_b gamma_beta k H) as S.
  assert (Q : value (ArrVanGent2025.calculate_dimensionless_overtopping_discharge_q Hm0 Hm0_swell Tmm10 r Ac cot_alpha beta B_berm db Dn50 gamma_f gamma_b gamma_v gamma_beta design wind) = Err ValueError) by apply S.
  assert (R : forall g max_iter tol, value (ArrVanGent2025.calculate_dimensionless_crest_freeboard Hm0 Hm0_swell Tmm10 r Ac cot_alpha beta B_berm db Dn50 gamma_f gamma_b gamma_v gamma_beta g design wind max_iter tol) = Err ValueError) by (intros; apply S).
  split; [exact Q|]. split; [unfold ArrVanGent2025.calculate_overtopping_discharge_q; rewrite value_bind, Q; reflexivity|].
  split; [apply R|]. unfold ArrVanGent2025.calculate_crest_freeboard_Rc; rewrite value_bind, R; reflexivity.
Qed.

(** The arguments that only the validity check combines *)
Lemma acheck_ok n f e lo hi : value (acheck n f e lo hi) = Ok tt -> exists r, value e = Ok r.
Proof. unfold acheck. intros E. apply step in E as (r & E & _). exists r. exact E. Qed.
Lemma filled_given a : filled a -> given a = true.
Proof.
  intros (_ & F). unfold given, any_nan. apply negb_true_iff. apply not_true_iff_false. intros X. apply existsb_exists in X as (x & I & N).
  rewrite Forall_forall in F. rewrite (F x I) in N. discriminate N.
Qed.
Lemma check_stops Hm0 Hm0_deep Tmm10 beta h cot_alpha Dn50 Rc Ac Gc B_berm db : filled Hm0 ->
  (filled Rc /\ ~ compatible [B_berm; Hm0]) \/ (filled Rc /\ ~ compatible [db; Hm0]) \/ (filled Dn50 /\ ~ compatible [Dn50; Hm0]) \/ (filled Rc /\ filled Ac /\ ~ compatible [Rc; Ac; Hm0]) ->
  value (ArrVanGent2025.check_validity_range Hm0 Hm0_deep Tmm10 beta h cot_alpha Dn50 Rc Ac Gc B_berm db) <> Ok tt.
Proof.
  intros FH H E. unfold ArrVanGent2025.check_validity_range in E. rewrite (filled_given _ FH) in E. cbn [andb] in E.
  repeat match type of E with value (bind _ _) = _ => let u := fresh "u" in let E' := fresh "E'" in apply step in E as (u & E' & E); destruct u end.
  assert (C2 : forall a b : nums, (exists r, value (a / b)%arr = Ok r) -> compatible [a; b]).
  { intros a b (r & X). exists (shape r). pose proof (uses_lift2 ndiv _ _ _ _ (uses_leaf a) (uses_leaf b) r X) as U. cbn [app] in U. inversion U as [|? ? U1 U2]; subst. inversion U2; subst. constructor; [assumption|constructor; [assumption|constructor]]. }
  destruct H as [(FR & H)|[(FR & H)|[(FD & H)|(FR & FA & H)]]]; apply H.
  - apply C2. rewrite (filled_given _ FR) in *. cbn [when andb] in *.
    eapply acheck_ok; eassumption.
  - apply C2. rewrite (filled_given _ FR) in *. cbn [when andb] in *.
    eapply acheck_ok; eassumption.
  - apply C2. rewrite (filled_given _ FD) in *. cbn [when andb] in *.
    eapply acheck_ok; eassumption.
  - rewrite (filled_given _ FR), (filled_given _ FA) in *. cbn [when andb] in *.
    assert (Y : exists r, value ((Rc - Ac) / Hm0)%arr = Ok r) by (eapply acheck_ok; eassumption). destruct Y as (r & Y).
    exists (shape r). assert (U : uses ((Rc - Ac) / Hm0)%arr [shape Rc; shape Ac; shape Hm0]) by (autounfold with arrays; eapply uses_incl; [uses_tac|incl_tac]).
    specialize (U r Y). repeat match goal with U : Forall _ (_ :: _) |- _ => inversion U; subst; clear U end. repeat (constructor; [assumption|]). constructor.
Qed.

Theorem C70_unfit_stops : forall Hm0 Hm0_swell Tmm10 Rc Ac cot_alpha beta B_berm db Dn50 gamma_f gamma_b gamma_v gamma_beta g design wind, filled Hm0 ->
  (filled Rc /\ ~ compatible [B_berm; Hm0]) \/ (filled Rc /\ ~ compatible [db; Hm0]) \/ (filled Dn50 /\ ~ compatible [Dn50; Hm0]) \/ (filled Rc /\ filled Ac /\ ~ compatible [Rc; Ac; Hm0]) ->
  value (ArrVanGent2025.calculate_dimensionless_overtopping_discharge_q Hm0 Hm0_swell Tmm10 Rc Ac cot_alpha beta B_berm db Dn50 gamma_f gamma_b gamma_v gamma_beta design wind) = Err ValueError
  /\ value (ArrVanGent2025.calculate_overtopping_discharge_q Hm0 Hm0_swell Tmm10 Rc Ac cot_alpha beta B_berm db Dn50 gamma_f gamma_b gamma_v gamma_beta g design wind) = Err ValueError.
Proof.
  intros Hm0 Hm0_swell Tmm10 Rc Ac cot_alpha beta B_berm db Dn50 gamma_f gamma_b gamma_v gamma_beta g design wind FH H.
  match goal with |- value ?c = _ /\ _ => assert (Q : value c = Err ValueError) end.
  { unfold ArrVanGent2025.calculate_dimensionless_overtopping_discharge_q.
    apply tame_then; [apply tame_factor_beta|]. intros gb. apply tame_then; [autounfold with arrays; tame_tac|]. intros ksi.
    apply tame_then; [apply tame_factor_b|]. intros b. apply tame_then; [apply tame_factor_f|]. intros f.
    apply tame_then; [autounfold with arrays; tame_tac|]. intros x. apply tame_then; [autounfold with arrays; tame_tac|]. intros y.
    apply tame_then; [unfold stacked_min; tame_tac|]. intros z. apply tame_then; [unfold stacked_min; tame_tac|]. intros m.
    apply tame_then; [unfold ArrVanGent2025.after_minimum; destruct wind, design; autounfold with arrays; tame_tac|]. intros u.
    rewrite value_bind. destruct (value (ArrVanGent2025.check_validity_range Hm0 anan Tmm10 beta anan cot_alpha Dn50 Rc Ac anan B_berm db)) as [[]|e] eqn:E; [exfalso; revert E; apply check_stops; assumption|].
    f_equal. eapply check_tame. exact E. }
  split; [exact Q|]. unfold ArrVanGent2025.calculate_overtopping_discharge_q. rewrite value_bind, Q. reflexivity.
Qed.

(** ** The validity check *)

Theorem C70_check : forall Hm0 Hm0_deep Tmm10 beta h cot_alpha Dn50 Rc Ac Gc B_berm db,
  reports_places [Hm0; Hm0_deep; Tmm10; beta; h; cot_alpha; Dn50; Rc; Ac; Gc; B_berm; db]
    (ArrVanGent2025.check_validity_range Hm0 Hm0_deep Tmm10 beta h cot_alpha Dn50 Rc Ac Gc B_berm db)
    (fun at_ => VanGent2025.check_validity_range (at_ Hm0) (at_ Hm0_deep) (at_ Tmm10) (at_ beta) (at_ h) (at_ cot_alpha) (at_ Dn50) (at_ Rc) (at_ Ac) (at_ Gc) (at_ B_berm) (at_ db)).
Proof. intros. unfold ArrVanGent2025.check_validity_range, VanGent2025.check_validity_range. reports_tac. told_tac. Qed.

(** ** The influence factors *)

Theorem C70_factors : forall Dn50 Hm0 smm10 Ac B_berm BL beta cot_alpha Rc q_diml,
  place_by_place [Dn50; Hm0; smm10] (ArrVanGent2025.calculate_influence_friction_gamma_f Dn50 Hm0 smm10)
    (fun at_ => Ok (VanGent2025.calculate_influence_friction_gamma_f (at_ Dn50) (at_ Hm0) (at_ smm10)))
  /\ place_by_place [Hm0; smm10; Ac; B_berm; BL] (ArrVanGent2025.calculate_influence_berm_gamma_b Hm0 smm10 Ac B_berm BL)
    (fun at_ => Ok (VanGent2025.calculate_influence_berm_gamma_b (at_ Hm0) (at_ smm10) (at_ Ac) (at_ B_berm) (at_ BL)))
  /\ place_by_place [beta] (ArrVanGent2025.calculate_influence_oblique_waves_gamma_beta beta)
    (fun at_ => Ok (VanGent2025.calculate_influence_oblique_waves_gamma_beta (at_ beta)))
  /\ place_by_place [cot_alpha; Rc; Ac] (ArrVanGent2025.calculate_influence_crest_wall_gamma_v cot_alpha Rc Ac)
    (fun at_ => Ok (VanGent2025.calculate_influence_crest_wall_gamma_v (at_ cot_alpha) (at_ Rc) (at_ Ac)))
  /\ place_by_place [Rc; Ac; Hm0; q_diml] (ArrVanGent2025.calculate_influence_wind_gamma_w Rc Ac Hm0 q_diml)
    (fun at_ => Ok (VanGent2025.calculate_influence_wind_gamma_w (at_ Rc) (at_ Ac) (at_ Hm0) (at_ q_diml))).
Proof.
  intros. do 4 (split; [eapply place_by_place_intro; [reflexivity|expression_tac|intros; reflexivity]|]).
  eapply place_by_place_intro; [reflexivity|expression_tac|intros; reflexivity].
Qed.

(** ** Example *)

Lemma still_water g T cot : (0 < g)%R -> (0 < T)%R -> (0 < cot)%R ->
  value (VanGent2025.calculate_overtopping_discharge_q #1 #0 (Fin T) #0 #0 (Fin cot) NaN #0 #0 NaN #0.5 #1 #1 #1 (Fin g) false false)%num = Ok (Fin (0.8 / cot * sqrt g), true).
Proof.
  intros Hg HT Hc.
  destruct (OvertoppingVanGent25.C26_discharge g 1 T cot 0.5 1 1 1 0 0 false #0%num NaN #0%num #0%num NaN) as (b & E & Hb); try lra.
  cbv zeta in E, Hb. etransitivity; [exact E|]. unfold vg25_discharge, vg25_general, vg25_maximum in *. replace ((0 - 0.4 * 0) / 1)%R with 0%R in * by lra.
  assert (IC : (0 < / cot)%R) by (apply Rinv_0_lt_compat; exact Hc).
  rewrite !Rmult_0_r in *. unfold Rdiv in *. rewrite !Rmult_0_l, !Ropp_0, !exp_0 in *.
  rewrite Rmin_right by lra. unfold q_unit. replace (g * 1 ^ 3)%R with g by ring.
  do 2 f_equal; [f_equal; lra|]. apply Hb. lra.
Qed.

Example C70_example : forall g T, (0 < g)%R -> (0 < T)%R ->
  (exists r m, value (ArrVanGent2025.calculate_overtopping_discharge_q (lit 1) (lit 0) (lit T) (lit 0) (lit 0) (Ar [#2; #4]%num) anan (lit 0) (lit 0) anan (lit 0.5) (lit 1) (lit 1) (lit 1) (Fin g) false false) = Ok (r, m)
   /\ shape r = Some 2 /\ shape m = Some 2 /\ place 1 r = Fin (0.8 / 4 * sqrt g) /\ at_ m 1 = Some true)
  /\ (exists r m, value (ArrVanGent2025.calculate_overtopping_discharge_q (lit 1) (lit 0) (lit T) (lit 0) (Ar [#0; #1]%num) (lit 2) anan (lit 0) (lit 0) anan (lit 0.5) (lit 1) (lit 1) (lit 1) (Fin g) false true) = Ok (r, m)
   /\ shape r = Some 2 /\ shape m = None)
  /\ value (ArrVanGent2025.calculate_crest_freeboard_Rc (lit 1) (lit 0) (lit T) (lit 0) (Ar [#0; #1]%num) (lit 2) anan (lit 0) (lit 0) anan (lit 0.5) (lit 1) (lit 1) (lit 1) false true) = Err ValueError
  /\ value (ArrVanGent2025.calculate_overtopping_discharge_q (lit 1) (lit 0) (lit T) (lit 0) (lit 0) (lit 2) anan (lit 0) (lit 0) anan (Ar [#0.5; #0.5]%num) (lit 1) (lit 1) (lit 1) (Fin g) false false) = Err ValueError.
Proof.
  intros g T Hg HT.
  assert (F : forall x others, factor_from (lit x) others [lit x]) by (intros; exists (Fin x); split; [reflexivity|left; split; reflexivity]).
  assert (K : forall D, stone_known (lit 0.5) D) by (left; exists (Fin 0.5); split; reflexivity).
  split; [|split; [|split]].
  - destruct (C70_q (lit 1) (lit 0) (lit T) (lit 0) (lit 0) (Ar [#2; #4]%num) anan (lit 0) (lit 0) anan (lit 0.5) (lit 1) (lit 1) (lit 1) (Fin g) false false _ _ _ (F 1%R _) (F 1%R _) (F 0.5%R _) (K _)) as (H & _).
    assert (C : common [lit 1; lit 0; lit T; lit 0; Ar [#2; #4]%num; lit 1; lit 1; lit 1; lit 0.5] (Some 2)).
    { split; [repeat (constructor; [first [apply stretches_none|apply stretches_refl]|]); constructor|]. right. do 4 apply Exists_cons_tl. apply Exists_cons_hd. reflexivity. }
    destruct (H (Some 2) (Some 2)) as (r & m & E & Sr & Sm & V).
    + exact C.
    + exact C.
    + exists (Some 2). cbn [app]. repeat (constructor; [first [apply stretches_none|apply stretches_refl]|]); constructor.
    + exists r, m. split; [exact E|]. split; [exact Sr|]. split; [exact Sm|]. destruct (V 1) as (b & Eb & Sb); [cbn; lia|].
      pose proof (eq_trans (eq_sym Sb) (still_water g T 4 Hg HT ltac:(lra))) as X. injection X as X1 X2. split; [exact X1|]. rewrite Eb, X2. reflexivity.
  - destruct (C70_q (lit 1) (lit 0) (lit T) (lit 0) (Ar [#0; #1]%num) (lit 2) anan (lit 0) (lit 0) anan (lit 0.5) (lit 1) (lit 1) (lit 1) (Fin g) false true _ _ _ (F 1%R _) (F 1%R _) (F 0.5%R _) (K _)) as (H & _).
    destruct (H None (Some 2)) as (r & m & E & Sr & Sm & _).
    + split; [repeat (constructor; [apply stretches_none|]); constructor|]. left. reflexivity.
    + split; [repeat (constructor; [first [apply stretches_none|apply stretches_refl]|]); constructor|]. right. do 9 apply Exists_cons_tl. apply Exists_cons_hd. reflexivity.
    + exists (Some 2). cbn [app]. repeat (constructor; [first [apply stretches_none|apply stretches_refl]|]); constructor.
    + exists r, m. auto.
  - apply (C70_Rc_wind_stops (lit 1) (lit 0) (lit T) (lit 0) (Ar [#0; #1]%num) (lit 2) anan (lit 0) (lit 0) anan (lit 0.5) (lit 1) (lit 1) (lit 1) false _ _ _ (F 1%R _) (F 1%R _) (F 0.5%R _) (K _)).
    intros (sh & _ & C & S). assert (Z : sh = None).
    { destruct C as (_ & [->|C]); [reflexivity|]. apply Exists_exists in C as (a & I & <-). cbn [app In] in I. repeat destruct I as [<-|I]; try reflexivity. destruct I. }
    subst sh. destruct S as [S|[(S & _)|S]]; discriminate S.
  - destruct (C70_stops (lit 1) (lit 0) (lit T) (lit 0) (lit 0) (lit 2) anan (lit 0) (lit 0) anan (Ar [#0.5; #0.5]%num) (lit 1) (lit 1) (lit 1) (Fin g) false false 1 #0%num) as (_ & H & _); [|exact H].
    right. right. left. intros x O. discriminate O.
Qed.
