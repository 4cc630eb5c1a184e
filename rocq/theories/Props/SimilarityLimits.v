(** C76: what does not follow the scale *)
From Coq Require Import Reals Lra Lia Bool ZArith String List.
From Verif.Lib Require Import Num Monad RTac NTac.
From Verif.Spec Require Import Similarity Waves.
From Verif.Model Require Import CoreUtility CorePhysics.
From Verif.Model Require VanderMeer1998 EtemadShahidi2021 KramerBurcharth2004 RearVanGentPozueta2004 RunupTAW2002.
From Verif.Proofs Require Import Core Similarity SimilarityLoops.
From Verif.Props Require Import SimilarityStability SimilarityHydraulic.
Import ListNotations.
Open Scope R_scope.

(** ** Kramer and Burcharth (2004): the default tolerance is a number of metres *)
Definition next (D : R) : R := 1 / 1.36 * (1 - 1 * (0.06 * (1 / D) - 0.23)).
Lemma next_step D : 0 < D -> (#1 / #1.36 * (#1 / #1 - #1 * (#0.06 * (#1 / Fin D) - #0.23)))%num = Fin (next D).
Proof. intros H. nfin; try lra. unfold next. f_equal. dec. field. lra. Qed.
Lemma next_le D E : 0 < D -> D <= E -> next D <= next E.
Proof. intros H HE. unfold next. assert (/ E <= / D) by (apply Rinv_le_contravar; assumption). dec. lra. Qed.

Definition step (D : num) : num := (#1 / #1.36 * (#1 / #1 - #1 * (#0.06 * (#1 / D) - #0.23)))%num.
Lemma from_above b tol n : 0 < b -> b <= next b -> forall x prev diff, b <= x -> exists y, KramerBurcharth2004.iteration step tol n (Fin x) prev diff = Fin y /\ b <= y.
Proof.
  intros B N. induction n as [|n IH]; intros x prev diff X; cbn [KramerBurcharth2004.iteration]; (destruct (_ >? _)%num; [|eauto]); [eauto|].
  unfold step at 2 3 4. rewrite next_step by lra. apply IH. pose proof (next_le b x B X). lra.
Qed.

Lemma kramer_value tol : value (KramerBurcharth2004.calculate_nominal_rock_diameter_Dn50 #1 #1 #2050 KramerBurcharth2004.Ns_init_default KramerBurcharth2004.max_iter_default tol)
  = Ok (KramerBurcharth2004.iteration step tol KramerBurcharth2004.max_iter_default (Fin (1 / 2)) PInf PInf).
Proof.
  unfold KramerBurcharth2004.calculate_nominal_rock_diameter_Dn50, KramerBurcharth2004.Ns_init_default. cbv zeta.
  replace (calculate_buoyant_density_Delta #2050 #1025) with #1 by (unfold calculate_buoyant_density_Delta; nfin; try lra; f_equal; dec; field).
  replace (#1 / (#1 * #2))%num with (Fin (1 / 2)) by (nfin; try lra; f_equal; dec; field). fold step.
  rewrite (value_bind_ok _ _ tt); [reflexivity|]. apply value_when, value_check.
Qed.

Theorem C76_kramer2004_tolerance_refuted : exists l Hs Rc rho_armour, 0 < l /\ ~ similar_value (distance l)
  (KramerBurcharth2004.calculate_nominal_rock_diameter_Dn50 (distance l Hs) (distance l Rc) rho_armour KramerBurcharth2004.Ns_init_default
     KramerBurcharth2004.max_iter_default KramerBurcharth2004.tolerance_default)
  (KramerBurcharth2004.calculate_nominal_rock_diameter_Dn50 Hs Rc rho_armour KramerBurcharth2004.Ns_init_default
     KramerBurcharth2004.max_iter_default KramerBurcharth2004.tolerance_default).
Proof.
  exists 0.0001, #1, #1, #2050. split; [lra|]. intros S. unfold similar_value in S.
  destruct (C76_kramer2004 0.0001 ltac:(lra)) as [K _].
  specialize (K #1 #1 #2050 KramerBurcharth2004.Ns_init_default KramerBurcharth2004.max_iter_default #0.1). unfold similar in K.
  replace (distance 0.0001 #0.1) with KramerBurcharth2004.tolerance_default in K by (unfold KramerBurcharth2004.tolerance_default, distance, scaled; f_equal; lra).
  rewrite K, !value_bind, !kramer_value in S. clear K. unfold KramerBurcharth2004.max_iter_default in S. set (n := 997%nat) in S. change 1000%nat with (3 + n)%nat in S. clearbody n.
  cbn [Nat.add KramerBurcharth2004.iteration] in S.
  assert (N : forall D E, 0 < D -> next D = E -> step (Fin D) = Fin E) by (intros D E HD <-; apply next_step, HD).
  rewrite (N (1 / 2) (111 / 136)), (N (111 / 136) (4279 / 5032)) in S by (unfold next; dec; lra || field).
  replace (nabs (Fin (111 / 136) - PInf))%num with PInf in S by reflexivity. unfold KramerBurcharth2004.tolerance_default in S.
  replace (nabs (Fin (4279 / 5032) - Fin (111 / 136)))%num with (Fin (4279 / 5032 - 111 / 136)) in S by (cbn; rewrite Rabs_right by lra; reflexivity).
  cbn [ngt nlt] in S. rewrite (Rltb_false 0.1), (Rltb_true 0.00001) in S by lra.
  destruct (from_above (496125 / 581944) (Fin 0.00001) n ltac:(lra) ltac:(unfold next; dec; lra) (496125 / 581944) (step (Fin (4279 / 5032)))
     (nabs (step (Fin (4279 / 5032)) - Fin (4279 / 5032))) ltac:(lra)) as (y & E & Y).
  rewrite (N (4279 / 5032) (496125 / 581944)) in S, E by (unfold next; dec; lra || field). rewrite E in S. cbn in S. injection S as S. lra.
Qed.

(** ** Van der Meer (1998): the warnings are about metres and square metres *)
Theorem C76_vandermeer1998_warnings_refuted : exists l Hs ht h Nod rho_rock rho_water, 0 < l /\ ~ similar (distance l)
  (VanderMeer1998.calculate_nominal_diameter_Dn50 (distance l Hs) (distance l ht) (distance l h) Nod rho_rock rho_water)
  (VanderMeer1998.calculate_nominal_diameter_Dn50 Hs ht h Nod rho_rock rho_water).
Proof.
  exists 0.25, #8.2, #5, #5, #1, #2000, #1000. split; [lra|]. intros S. unfold similar in S. apply (f_equal (fun m => List.length (warns m))) in S. revert S.
  unfold distance, scaled, VanderMeer1998.calculate_nominal_diameter_Dn50. cbv zeta.
  replace (calculate_buoyant_density_Delta #2000 #1000) with #1 by (unfold calculate_buoyant_density_Delta; nfin; try lra; f_equal; dec; field).
  assert (E : forall k, 0 < k -> (Fin (k * 5) / Fin (k * 5))%num = #1) by (intros; nfin; try lra; f_equal; field; lra).
  replace (#5 / #5)%num with #1 by (nfin; try lra; f_equal; field). rewrite E by lra.
  assert (P : forall e, npow #1 (Fin e) = #1) by (intros; nfin; f_equal; apply Rpower_1_base). rewrite !P.
  assert (Q : forall x, (Fin x / ((#2 + #6.2 * #1) * #1 * #1))%num = Fin (x / 8.2)) by (intros; nfin; try lra; f_equal; dec; field).
  rewrite !Q. unfold VanderMeer1998.check_validity. cbn [provided isnan negb andb when].
  rewrite E by lra. replace (#5 / #5)%num with #1 by (nfin; try lra; f_equal; field).
  replace (npow #1 (- #0.15))%num with #1 by (symmetry; apply P).
  replace (#1 * (Fin (0.25 * 8.2) / #1 * Fin (0.25 * 8.2 / 8.2)))%num with (Fin 0.5125) by (nfin; try lra; f_equal; dec; field).
  replace (#1 * (#8.2 / #1 * Fin (8.2 / 8.2)))%num with (Fin 8.2) by (nfin; try lra; f_equal; dec; field).
  replace (Fin (0.25 * 5) / Fin (0.25 * 8.2 / 8.2))%num with (Fin 5) by (nfin; try lra; f_equal; dec; field).
  replace (#5 / Fin (8.2 / 8.2))%num with (Fin 5) by (nfin; try lra; f_equal; dec; field).
  replace (Fin (0.25 * 8.2)) with (Fin 2.05) by (f_equal; lra).
  repeat first [rewrite warns_bind | rewrite value_bind | rewrite warns_check | rewrite value_check]. cbn [warns value ret fst snd nlt ngt].
  repeat first [rewrite (Rltb_false _ _) by lra | rewrite (Rltb_true _ _) by lra]. cbn. lia.
Qed.

(** ** Van Gent and Pozueta (2004): the wave height the search starts with, (Rc + 0.5) / (2.552 gamma_f), adds half a metre to the crest level *)
Lemma pozueta_once k t Rc : 0 < k -> 0 < Rc -> sqrt (((Rc + 0.5) / 2.552) / k) > 0.2 ->
  value (RearVanGentPozueta2004.calculate_maximum_significant_wave_height_Hs #4 #1 #1 #1 #0 (Fin (sqrt (k * (2 * PI / 9.81)))) (Fin Rc) (Fin k) (Fin k) #1 (Fin k) NaN #2000 #1000 #1 (Fin t) 1) = Ok (Fin (Rc * 4 * sqrt (((Rc + 0.5) / 2.552) / k) / 1.45)).
Proof.
  intros K R Q. unfold RearVanGentPozueta2004.calculate_maximum_significant_wave_height_Hs. cbv zeta.
  unfold check_usage_Dn50_or_M50. cbn [isnan negb andb orb]. rewrite bind_ret_l.
  replace (calculate_buoyant_density_Delta #2000 #1000) with #1 by (unfold calculate_buoyant_density_Delta; nfin; try lra; f_equal; dec; field).
  cbn [RearVanGent2007.search].
  replace ((Fin Rc + #0.5) / (#2.552 * #1))%num with (Fin ((Rc + 0.5) / 2.552)) by (nfin; try lra; f_equal; dec; field).
  set (x := (Rc + 0.5) / 2.552) in *. assert (X : 0 < x) by (unfold x, Rdiv; apply Rmult_lt_0_compat; [lra|apply Rinv_0_lt_compat; lra]). clearbody x.
  assert (T : 0 < k * (2 * PI / 9.81)) by (apply Rmult_lt_0_compat; [exact K|pose proof PI_RGT_0; lra]).
  assert (T' : 0 < sqrt (k * (2 * PI / 9.81))) by (apply sqrt_lt_R0, T).
  change (nabs (Fin x - (Fin x + PInf)) >? Fin t)%num with true. cbv iota beta.
  assert (U : RearVanGentPozueta2004.invert_for_u1p #1 #0 (Fin x) (Fin (sqrt (k * (2 * PI / 9.81)))) (Fin k) #1 (Fin k) #1 #1 = #0).
  { unfold RearVanGentPozueta2004.invert_for_u1p. nfin.
    replace (1 / 1 * (0 / sqrt 1) * Rpower 1 2.5 * (1 / (1 + 10 * exp (- k / x))))%R with 0 by (unfold Rdiv; ring).
    unfold npow. rewrite Rltb_false, Reqb_true, Reqb_false, Rltb_true by (try reflexivity; lra). nfin. f_equal. unfold Rdiv. ring. }
  rewrite U.
  assert (Z : VanGent2002Velocity.invert_for_zXp (Fin x) #0 (Fin Rc) (Fin k) #1 #1 VanGent2002Velocity.cu1_default VanGent2002Velocity.cu2_default g_default = Fin Rc).
  { unfold VanGent2002Velocity.invert_for_zXp, VanGent2002Velocity.cu1_default, VanGent2002Velocity.cu2_default, g_default. nfin.
    replace (0 / sqrt (9.81 * x) * (1 / (1.7 * sqrt 1)) * (1 + 0.1 * k / x))%R with 0 by (unfold Rdiv; ring).
    f_equal. ring. }
  rewrite Z.
  assert (H : VanGent2001.invert_for_Hs (Fin x) (Fin Rc) (Fin (sqrt (k * (2 * PI / 9.81)))) #1 #4 VanGent2001.invert_c0 VanGent2001.invert_c1 = Fin (Rc * 4 * sqrt (x / k) / 1.45)).
  { unfold VanGent2001.invert_for_Hs, VanGent2001.invert_c0, VanGent2001.invert_c1. cbv zeta. rewrite iribarren_fin by lra.
    replace (iribarren g0 x (sqrt (k * (2 * PI / 9.81))) (1 / 4)) with (1 / 4 / sqrt (x / k)).
    2:{ unfold iribarren, steepness, g0. f_equal. f_equal. rewrite pow2_sqrt by lra. field. pose proof PI_RGT_0; lra. }
    assert (1 / 4 / sqrt (x / k) < 1.25) by (apply (Rmult_lt_reg_r (sqrt (x / k))); [lra|]; unfold Rdiv at 1; rewrite Rmult_assoc, Rinv_l by lra; lra).
    replace (#0.5 * #5.1 / #1.45)%num with (Fin (0.5 * 5.1 / 1.45)) by (nfin; try lra; reflexivity). cbn [nlt]. rewrite Rltb_true by lra.
    nfin; try lra. 1: f_equal; dec; field; lra. }
  rewrite H. change (0 =? 0)%nat with true. cbv iota. rewrite (value_bind_ok _ _ tt); [|reflexivity]. rewrite (value_bind_ok _ _ tt); [reflexivity|].
  unfold RearVanGentPozueta2004.check_validity_range.
  repeat (rewrite (value_bind_ok _ _ tt); [|apply value_when, value_check]). apply value_when, value_check.
Qed.

Theorem C76_pozueta2004_start_refuted : exists l cot_alpha cot_phi gamma_f gamma_f_Crest S Tmm10 Rc Rc_rear Bc N_waves Dn50 rho_rock rho_water cs tolerance max_iterations,
  0 < l /\ ~ similar_value (distance l)
    (RearVanGentPozueta2004.calculate_maximum_significant_wave_height_Hs cot_alpha cot_phi gamma_f gamma_f_Crest S (time l Tmm10) (distance l Rc) (distance l Rc_rear) (distance l Bc)
       N_waves (distance l Dn50) NaN rho_rock rho_water cs (distance l tolerance) max_iterations)
    (RearVanGentPozueta2004.calculate_maximum_significant_wave_height_Hs cot_alpha cot_phi gamma_f gamma_f_Crest S Tmm10 Rc Rc_rear Bc
       N_waves Dn50 NaN rho_rock rho_water cs tolerance max_iterations).
Proof.
  exists 0.5, #4, #1, #1, #1, #0, (Fin (sqrt (1 * (2 * PI / 9.81)))), #1, #1, #1, #1, #1, #2000, #1000, #1, RearVanGent2007.tolerance_default, 1%nat. split; [lra|].
  unfold similar_value. rewrite value_bind.
  unfold RearVanGent2007.tolerance_default. rewrite (pozueta_once 1) by (try lra; apply Rlt_gt; rewrite <- (sqrt_square 0.2) by lra; apply sqrt_lt_1; lra).
  replace (time 0.5 (Fin (sqrt (1 * (2 * PI / 9.81))))) with (Fin (sqrt (0.5 * (2 * PI / 9.81)))).
  2:{ unfold time, scaled. f_equal. rewrite <- sqrt_mult by (pose proof PI_RGT_0; lra). f_equal. lra. }
  unfold distance, scaled. rewrite !Rmult_1_r.
  rewrite (pozueta_once 0.5) by (try lra; apply Rlt_gt; rewrite <- (sqrt_square 0.2) by lra; apply sqrt_lt_1; lra). cbn [bind value ret snd]. intros S. injection S as S.
  assert (sqrt ((1 + 0.5) / 2.552 / 1) < sqrt ((0.5 + 0.5) / 2.552 / 0.5)) by (apply sqrt_lt_1; lra). lra.
Qed.
