From Coq Require Import Reals List Bool Arith Lia Lra FunctionalExtensionality.
From Verif.Lib Require Import Num Monad Arr ArrFlags ArrLoop RTac NTac.
From Verif.Spec Require Import Arrays ArrayFlags ArrayStacks.
From Verif.Proofs Require Import Core CheckTac Arrays ArrayLoops ArrayFlags ArrayTaw ArrayTawDischarge ArrayStacks.
From Verif.Model Require CorePhysics RunupTAW2002 RunupEurotop2018 OvertoppingTAW2002 OvertoppingEurotop2007 OvertoppingEurotop2018.
From Verif.Model Require Import CoreUtility ArrCore.
From Verif.Model Require ArrRunupTAW2002 ArrRunupEurotop2018 ArrOvertoppingTAW2002 ArrOvertoppingEurotop2007 ArrOvertoppingEurotop2018.
Import ListNotations.
Open Scope nat_scope.

(** ** The influence of oblique waves *)

Lemma oblique_value (beta : nums) c m : exists gb : nums,
  value (ArrRunupTAW2002.calculate_influence_oblique_waves_gamma_beta beta c m) = Ok gb /\ shape gb = shape beta
  /\ forall sh i, stretches (shape beta) sh -> inside sh i ->
     place i gb = RunupTAW2002.calculate_influence_oblique_waves_gamma_beta (place i beta) c m.
Proof.
  assert (K : forall sh, stretches (shape beta) sh -> exists gb : nums,
    value (ArrRunupTAW2002.calculate_influence_oblique_waves_gamma_beta beta c m) = Ok gb /\ stretches (shape gb) sh
    /\ stretches (shape beta) (shape gb)
    /\ forall i, inside sh i -> place i gb = RunupTAW2002.calculate_influence_oblique_waves_gamma_beta (place i beta) c m).
  { intros sh S.
    name sh (ArrRunupTAW2002.calculate_influence_oblique_waves_gamma_beta beta c m)
      (fun i => RunupTAW2002.calculate_influence_oblique_waves_gamma_beta (place i beta) c m) [shape beta] gb.
    exists gb. split; [exact Egb|]. split; [exact Sgb|]. split; [inversion Ugb; assumption|].
    intros i I. exact (place_den sh gb _ i Dgb I). }
  destruct (K (shape beta) (stretches_refl _)) as (gb & E & S1 & S2 & _). exists gb. split; [exact E|].
  split; [apply stretches_antisym; assumption|]. intros sh i S I. destruct (K sh S) as (gb' & E' & _ & _ & V).
  pose proof (eq_trans (eq_sym E) E') as J. injection J as <-. apply V, I.
Qed.

(** EurOtop (2018): the coefficient depends on the roughness, which is one number. *)
Lemma oblique2018_value (beta gamma_f : nums) x crit cs cr m : one_number gamma_f x -> exists gb : nums,
  value (ArrRunupEurotop2018.calculate_influence_oblique_waves_gamma_beta beta gamma_f crit cs cr m) = Ok gb /\ shape gb = shape beta
  /\ forall sh i, stretches (shape beta) sh -> inside sh i ->
     place i gb = RunupEurotop2018.calculate_influence_oblique_waves_gamma_beta (place i beta) (place i gamma_f) crit cs cr m.
Proof.
  intros O.
  destruct (oblique_value beta (if ngt x crit then cs else cr) m) as (gb & E & S & V). exists gb. split; [|split; [exact S|]].
  - unfold ArrRunupEurotop2018.calculate_influence_oblique_waves_gamma_beta. apply (steps _ _ (ngt x crit)); [|exact E].
    destruct gamma_f as [y|[|y [|? ?]]]; try discriminate O; injection O as ->; reflexivity.
  - intros sh i Sb I. rewrite (V sh i Sb I). unfold RunupEurotop2018.calculate_influence_oblique_waves_gamma_beta.
    assert (P : place i gamma_f = x) by (destruct gamma_f as [y|[|y [|? ?]]]; try discriminate O; injection O as ->; reflexivity).
    rewrite P. reflexivity.
Qed.
Lemma oblique2018_several (beta gamma_f : nums) n crit cs cr m : shape gamma_f = Some n -> n <> 1 ->
  value (ArrRunupEurotop2018.calculate_influence_oblique_waves_gamma_beta beta gamma_f crit cs cr m) = Err ValueError.
Proof.
  intros E N. unfold ArrRunupEurotop2018.calculate_influence_oblique_waves_gamma_beta. apply stops_first.
  unfold float. destruct gamma_f as [y|[|y [|z l]]]; cbn in E; try discriminate; try reflexivity. congruence.
Qed.

(** ** EurOtop (2007) *)
Section Eurotop2007.
Variables (Hm0 Tmm10 r beta gamma_beta f cot ob : nums) (c2 c3 : num) (best : bool).
Hypothesis OB : oblique_by beta gamma_beta ob.
Let args := [Hm0; Tmm10; r; ob; f; cot].
Let d2 := fst (OvertoppingEurotop2007.check_best_fit c2 c3 best).
Let d3 := snd (OvertoppingEurotop2007.check_best_fit c2 c3 best).

Lemma beta2007 : exists gb : nums,
  (forall B (k : nums -> M B),
     value (c <- ArrRunupTAW2002.check_calculate_gamma_beta beta gamma_beta ;;
            x <- (if c : bool then ArrRunupTAW2002.calculate_influence_oblique_waves_gamma_beta beta RunupTAW2002.c_gamma_beta_default RunupTAW2002.max_angle_default
                  else value_of gamma_beta) ;; k x) = value (k gb))
  /\ shape gb = shape ob
  /\ forall sh i, stretches (shape ob) sh -> inside sh i ->
     exists c, value (RunupTAW2002.check_calculate_gamma_beta (place i beta) (place i gamma_beta)) = Ok c
     /\ (if c : bool then RunupTAW2002.calculate_influence_oblique_waves_gamma_beta (place i beta) RunupTAW2002.c_gamma_beta_default RunupTAW2002.max_angle_default
         else place i gamma_beta) = place i gb.
Proof.
  destruct OB as [(F & ->)|(N & F & ->)].
  - exists gamma_beta. split; [|split; [reflexivity|]].
    + intros B k. rewrite (calculate_beta_given _ _ F), bind_ret_l. unfold value_of at 1. rewrite bind_ret_l. reflexivity.
    + intros sh i S I. exists false. rewrite (beta_given_at gamma_beta sh) by assumption. split; reflexivity.
  - destruct (oblique_value beta RunupTAW2002.c_gamma_beta_default RunupTAW2002.max_angle_default) as (gb & E & S & V).
    exists gb. split; [|split; [exact S|]].
    + intros B k. rewrite (calculate_beta_missing _ _ N F), bind_ret_l. apply (steps _ _ gb _ E). reflexivity.
    + intros sh i Sb I. exists true. rewrite (beta_missing_at beta gamma_beta sh) by assumption. split; [reflexivity|symmetry; apply (V sh i Sb I)].
Qed.

Definition e2007 (gb : nums) (last : nums -> M nums) : M nums :=
  (ksi <- calculate_Iribarren_number_ksi Hm0 Tmm10 cot ;;
   adj <- ArrRunupTAW2002.calculate_adjusted_influence_roughness_gamma_f f (lit 1%R) ksi ;; last adj)%arr.
Definition v2007 (i : nat) : num :=
  RunupTAW2002.calculate_adjusted_influence_roughness_gamma_f (place i f) #1%num
    (CorePhysics.calculate_Iribarren_number_ksi (place i Hm0) (place i Tmm10) (place i cot)).

Lemma factors2007 gb (last : nums * nums -> M nums) :
  (forall B (k : nums -> M B),
     value (c <- ArrRunupTAW2002.check_calculate_gamma_beta beta gamma_beta ;;
            x <- (if c : bool then ArrRunupTAW2002.calculate_influence_oblique_waves_gamma_beta beta RunupTAW2002.c_gamma_beta_default RunupTAW2002.max_angle_default
                  else value_of gamma_beta) ;; k x) = value (k gb)) ->
  value (fs <- ArrOvertoppingEurotop2007.influence_factors Hm0 Tmm10 beta gamma_beta f cot ;; last fs)
  = value (e2007 gb (fun adj => last (gb, adj))).
Proof.
  intros K. rewrite value_bind. unfold ArrOvertoppingEurotop2007.influence_factors. rewrite K. unfold e2007.
  rewrite !value_bind. destruct (value (calculate_Iribarren_number_ksi Hm0 Tmm10 cot)) as [k|]; [|reflexivity].
  rewrite !value_bind. destruct (value (ArrRunupTAW2002.calculate_adjusted_influence_roughness_gamma_f f (lit 1%R) k)); reflexivity.
Qed.

Lemma scalar2007 gb sh i : Forall (fun a => stretches (shape a) sh) args -> inside sh i ->
  (forall sh i, stretches (shape ob) sh -> inside sh i ->
     exists c, value (RunupTAW2002.check_calculate_gamma_beta (place i beta) (place i gamma_beta)) = Ok c
     /\ (if c : bool then RunupTAW2002.calculate_influence_oblique_waves_gamma_beta (place i beta) RunupTAW2002.c_gamma_beta_default RunupTAW2002.max_angle_default
         else place i gamma_beta) = place i gb) ->
  value (OvertoppingEurotop2007.influence_factors (place i Hm0) (place i Tmm10) (place i beta) (place i gamma_beta) (place i f) (place i cot))
  = Ok (place i gb, v2007 i).
Proof.
  intros F I V. unfold args in F. args_tac. destruct (V sh i) as (c & Ec & Hc); [assumption..|].
  unfold OvertoppingEurotop2007.influence_factors. rewrite !value_bind, Ec, value_ret, Hc. reflexivity.
Qed.

Let q_most (gb : nums) (i : nat) := OvertoppingTAW2002.q_diml_max_equation (place i Hm0) (place i r) (place i gb) (v2007 i) d3 OvertoppingTAW2002.cor3_default d2.
Let Rc_most (gb : nums) (i : nat) := OvertoppingTAW2002.Rc_diml_max_equation (place i Hm0) (place i r) (place i gb) (v2007 i) d3 OvertoppingTAW2002.cor3_default d2 CorePhysics.g_default.

Ltac expression2007 S gb v :=
  apply (shapes_expression [Hm0; Tmm10; r; gb; f; cot] _ _ v); [cbn [map]; rewrite S; reflexivity| |intros; reflexivity];
  unfold e2007, ArrOvertoppingTAW2002.q_diml_max_equation, ArrOvertoppingTAW2002.Rc_diml_max_equation, ArrOvertoppingEurotop2007.cor3_default,
    OvertoppingTAW2002.cor3_default, g_default, CorePhysics.g_default; expression_tac.
Ltac call2007 K gb :=
  unfold ArrOvertoppingEurotop2007.calculate_overtopping_discharge_q_rubble_mound, ArrOvertoppingEurotop2007.calculate_crest_freeboard_Rc_rubble_mound,
    ArrOvertoppingEurotop2007.calculate_dimensionless_overtopping_discharge_q_rubble_mound, ArrOvertoppingEurotop2007.calculate_dimensionless_crest_freeboard_rubble_mound;
  rewrite (surjective_pairing (OvertoppingEurotop2007.check_best_fit c2 c3 best)); fold d2 d3;
  first [rewrite (factors2007 gb) by exact K; reflexivity
        |rewrite value_bind, (factors2007 gb) by exact K; rewrite value_bind; reflexivity].
Ltac scalar2007_tac V gb :=
  intros sh i F I; cbv beta;
  unfold OvertoppingEurotop2007.calculate_overtopping_discharge_q_rubble_mound, OvertoppingEurotop2007.calculate_crest_freeboard_Rc_rubble_mound,
    OvertoppingEurotop2007.calculate_dimensionless_overtopping_discharge_q_rubble_mound, OvertoppingEurotop2007.calculate_dimensionless_crest_freeboard_rubble_mound;
  rewrite (surjective_pairing (OvertoppingEurotop2007.check_best_fit c2 c3 best)); fold d2 d3;
  rewrite !value_bind, (scalar2007 gb sh i F I V); reflexivity.

Lemma q2007 : place_by_place args
  (ArrOvertoppingEurotop2007.calculate_dimensionless_overtopping_discharge_q_rubble_mound Hm0 Tmm10 r beta gamma_beta f cot c2 c3 best)
  (fun at_ => value (OvertoppingEurotop2007.calculate_dimensionless_overtopping_discharge_q_rubble_mound
     (at_ Hm0) (at_ Tmm10) (at_ r) (at_ beta) (at_ gamma_beta) (at_ f) (at_ cot) c2 c3 best)).
Proof.
  destruct beta2007 as (gb & K & S & V).
  eapply (place_by_place_intro _ _ (e2007 gb (fun adj => ArrOvertoppingTAW2002.q_diml_max_equation Hm0 r gb adj d3 ArrOvertoppingEurotop2007.cor3_default d2))).
  - call2007 K gb.
  - expression2007 S gb (q_most gb).
  - scalar2007_tac V gb.
Qed.

Lemma q2007_dim g : place_by_place args
  (ArrOvertoppingEurotop2007.calculate_overtopping_discharge_q_rubble_mound Hm0 Tmm10 r beta gamma_beta f cot c2 c3 best (float g))
  (fun at_ => value (OvertoppingEurotop2007.calculate_overtopping_discharge_q_rubble_mound
     (at_ Hm0) (at_ Tmm10) (at_ r) (at_ beta) (at_ gamma_beta) (at_ f) (at_ cot) c2 c3 best g)).
Proof.
  destruct beta2007 as (gb & K & S & V).
  eapply (place_by_place_intro _ _ (x <- e2007 gb (fun adj => ArrOvertoppingTAW2002.q_diml_max_equation Hm0 r gb adj d3 ArrOvertoppingEurotop2007.cor3_default d2) ;;
    (x * asqrt (float g * apow Hm0 #3))%arr)).
  - call2007 K gb.
  - expression2007 S gb (fun i => (q_most gb i * nsqrt (g * npow (place i Hm0) #3))%num).
  - scalar2007_tac V gb.
Qed.

Lemma Rc2007 : place_by_place args
  (ArrOvertoppingEurotop2007.calculate_dimensionless_crest_freeboard_rubble_mound Hm0 Tmm10 r beta gamma_beta f cot c2 c3 best)
  (fun at_ => value (OvertoppingEurotop2007.calculate_dimensionless_crest_freeboard_rubble_mound
     (at_ Hm0) (at_ Tmm10) (at_ r) (at_ beta) (at_ gamma_beta) (at_ f) (at_ cot) c2 c3 best)).
Proof.
  destruct beta2007 as (gb & K & S & V).
  eapply (place_by_place_intro _ _ (e2007 gb (fun adj => ArrOvertoppingTAW2002.Rc_diml_max_equation Hm0 r gb adj d3 ArrOvertoppingEurotop2007.cor3_default d2 g_default))).
  - call2007 K gb.
  - expression2007 S gb (Rc_most gb).
  - scalar2007_tac V gb.
Qed.

Lemma Rc2007_dim : place_by_place args
  (ArrOvertoppingEurotop2007.calculate_crest_freeboard_Rc_rubble_mound Hm0 Tmm10 r beta gamma_beta f cot c2 c3 best)
  (fun at_ => value (OvertoppingEurotop2007.calculate_crest_freeboard_Rc_rubble_mound
     (at_ Hm0) (at_ Tmm10) (at_ r) (at_ beta) (at_ gamma_beta) (at_ f) (at_ cot) c2 c3 best)).
Proof.
  destruct beta2007 as (gb & K & S & V).
  eapply (place_by_place_intro _ _ (x <- e2007 gb (fun adj => ArrOvertoppingTAW2002.Rc_diml_max_equation Hm0 r gb adj d3 ArrOvertoppingEurotop2007.cor3_default d2 g_default) ;;
    (x * Hm0)%arr)).
  - call2007 K gb.
  - expression2007 S gb (fun i => (Rc_most gb i * place i Hm0)%num).
  - scalar2007_tac V gb.
Qed.
End Eurotop2007.

(** ** EurOtop (2018) *)

Lemma beta2018 (beta gamma_beta f ob : nums) : oblique_with beta gamma_beta f ob -> exists gb : nums,
  value (ArrOvertoppingEurotop2018.factor_beta beta gamma_beta f) = Ok gb /\ shape gb = shape ob
  /\ forall sh i, stretches (shape ob) sh -> inside sh i ->
     value (OvertoppingEurotop2018.factor_beta (place i beta) (place i gamma_beta) (place i f)) = Ok (place i gb).
Proof.
  intros [(F & ->)|(N & F & -> & x & O)].
  - exists gamma_beta. split; [|split; [reflexivity|]].
    + unfold ArrOvertoppingEurotop2018.factor_beta. rewrite (calculate_beta_given _ _ F). reflexivity.
    + intros sh i S I. unfold OvertoppingEurotop2018.factor_beta. rewrite (beta_given_at gamma_beta sh) by assumption. reflexivity.
  - destruct (oblique2018_value beta f x OvertoppingEurotop2018.gamma_f_crit_default OvertoppingEurotop2018.c_gamma_beta_smooth_default
      OvertoppingEurotop2018.c_gamma_beta_rough_default OvertoppingEurotop2018.max_angle_default O) as (gb & E & S & V).
    exists gb. split; [|split; [exact S|]].
    + unfold ArrOvertoppingEurotop2018.factor_beta. rewrite (calculate_beta_missing _ _ N F), bind_ret_l. exact E.
    + intros sh i Sb I. unfold OvertoppingEurotop2018.factor_beta. rewrite (beta_missing_at beta gamma_beta sh) by assumption.
      rewrite bind_ret_l, value_ret, (V sh i Sb I). reflexivity.
Qed.

Lemma slope_single Hm0 Tmm10 cot down up B db f gb best : filled cot -> missing down \/ missing up ->
  value (ArrOvertoppingEurotop2018.slope Hm0 Tmm10 cot down up B db f gb best) = Ok cot.
Proof. intros F N. unfold ArrOvertoppingEurotop2018.slope. rewrite (single_slope _ _ _ F N). reflexivity. Qed.
Lemma slope_single_at sh i Hm0 Tmm10 cot down up B db f gb best : filled cot -> missing down \/ missing up ->
  stretches (shape cot) sh -> inside sh i ->
  value (OvertoppingEurotop2018.slope Hm0 Tmm10 (place i cot) (place i down) (place i up) B db f gb best) = Ok (place i cot).
Proof. intros F N S I. unfold OvertoppingEurotop2018.slope. rewrite (single_slope_at cot down up sh i) by assumption. reflexivity. Qed.

Lemma zero_place (B : nums) i : one_number B (#0)%num -> place i B = (#0)%num.
Proof. destruct B as [y|[|y [|? ?]]]; intros E; try discriminate; injection E as ->; reflexivity. Qed.

(** Without a berm the search gives one at once. *)
Lemma no_berm (Hm0 Tmm10 cot B L db gb : nums) c1 c2 c3 c4 best f : one_number B (#0)%num ->
  value (ArrRunupEurotop2018.iteration_procedure_gamma_b Hm0 Tmm10 cot B L db gb c1 c2 c3 c4 best f) = Ok (lit 1%R).
Proof.
  intros O. unfold ArrRunupEurotop2018.iteration_procedure_gamma_b.
  destruct (RunupEurotop2018.check_best_fit c1 c2 c3 c4 best) as [[[d1 d2] d3] d4].
  unfold ArrRunupTAW2002.iteration_procedure_gamma_b, ArrRunupTAW2002.iteration_procedure_gamma_b_body.
  apply (steps _ _ true); [|reflexivity]. apply (steps _ _ true); [|reflexivity].
  destruct B as [y|[|y [|? ?]]]; try discriminate O; injection O as ->;
    unfold holds, cmp, lift2, value_of, lit; rewrite !bind_ret_l; cbn [bcast amap map]; rewrite bind_ret_l; cbn; rewrite (Reqb_true _ _ eq_refl); reflexivity.
Qed.
Lemma no_berm_at Hm0 Tmm10 cot L db gb c1 c2 c3 c4 best f :
  value (RunupEurotop2018.iteration_procedure_gamma_b Hm0 Tmm10 cot (#0)%num L db gb c1 c2 c3 c4 best f) = Ok (#1)%num.
Proof.
  unfold RunupEurotop2018.iteration_procedure_gamma_b. destruct (RunupEurotop2018.check_best_fit c1 c2 c3 c4 best) as [[[d1 d2] d3] d4].
  unfold RunupTAW2002.iteration_procedure_gamma_b, RunupTAW2002.iteration_procedure_gamma_b_body.
  replace (neqb (#0)%num (#0)%num) with true by (symmetry; exact (Reqb_true _ _ eq_refl)). reflexivity.
Qed.

Section Eurotop2018.
Variables (Hm0 Tmm10 r beta gamma_beta gamma_b f v star B db cot down up ob : nums) (c1 c2 c3 c4 : num) (best : bool).
Hypotheses (FC : filled cot) (SN : missing down \/ missing up) (OB : oblique_with beta gamma_beta f ob) (NB : one_number B (#0)%num).

Let d := OvertoppingEurotop2018.check_best_fit c1 c2 c3 c4 best.
Let d1 := fst (fst (fst d)).
Let d2 := snd (fst (fst d)).
Let d3 := snd (fst d).
Let d4 := snd d.
Let best_eq : OvertoppingEurotop2018.check_best_fit c1 c2 c3 c4 best = (d1, d2, d3, d4).
Proof. unfold d1, d2, d3, d4, d. destruct (OvertoppingEurotop2018.check_best_fit c1 c2 c3 c4 best) as [[[? ?] ?] ?]. reflexivity. Qed.

Lemma berm_length (k : nums) : value (calculate_Iribarren_number_ksi Hm0 Tmm10 cot) = Ok k ->
  exists l, value (ArrRunupTAW2002.calculate_berm_length Hm0 B cot down up) = Ok l.
Proof.
  intros EK. assert (U : uses (calculate_Iribarren_number_ksi Hm0 Tmm10 cot) [shape Hm0; shape Tmm10; shape cot]).
  { autounfold with arrays. eapply uses_incl; [uses_tac|incl_tac]. }
  apply U in EK. clear U.
  unfold ArrRunupTAW2002.calculate_berm_length. rewrite (single_slope _ _ _ FC SN), bind_ret_l. cbv zeta iota.
  assert (sh : exists sh, stretches (shape Hm0) sh /\ stretches (shape cot) sh /\ stretches (shape B) sh).
  { args_tac. destruct (shape k) as [n|].
    - exists (Some n). split; [assumption|]. split; [assumption|].
      destruct B as [y|[|y [|? ?]]]; try discriminate NB; [left; reflexivity|]. right. left. split; [reflexivity|discriminate].
    - assert (N : forall s, stretches s None -> stretches s (Some 1)) by (intros s [Q|[(_ & Q)|Q]]; [left; exact Q|congruence|left; congruence]).
      exists (Some 1). split; [auto|]. split; [auto|].
      destruct B as [y|[|y [|? ?]]]; try discriminate NB; [left; reflexivity|right; right; reflexivity]. }
  destruct sh as (sh & S1 & S2 & S3).
  assert (D : den sh (lit 1%R * Hm0 * cot + B + lit 1%R * Hm0 * cot)%arr
    (fun i => (#1 * place i Hm0 * place i cot + place i B + #1 * place i Hm0 * place i cot)%num)) by (eapply den_ext; [den_tac|intros; reflexivity]).
  destruct D as (l & El & _). exists l. exact El.
Qed.

(** The influence factors that are left *)
Lemma factors2018 gb (A : Type) (last : ArrOvertoppingEurotop2018.factors -> M A) :
  value (fac <- ArrOvertoppingEurotop2018.berm_and_roughness Hm0 Tmm10 cot down up B db f gb ;; last fac)
  = value (k <- calculate_Iribarren_number_ksi Hm0 Tmm10 cot ;;
           adj <- ArrRunupTAW2002.calculate_adjusted_influence_roughness_gamma_f f (lit 1%R) k ;;
           last {| ArrOvertoppingEurotop2018.fac_ksi := k; ArrOvertoppingEurotop2018.fac_gamma_b := lit 1%R; ArrOvertoppingEurotop2018.fac_gamma_f := adj |}).
Proof.
  rewrite value_bind. unfold ArrOvertoppingEurotop2018.berm_and_roughness. rewrite !value_bind.
  destruct (value (calculate_Iribarren_number_ksi Hm0 Tmm10 cot)) as [k|] eqn:EK; [|reflexivity].
  destruct (berm_length k EK) as (l & El). rewrite !value_bind, El, value_bind.
  rewrite (no_berm Hm0 Tmm10 cot B l db gb _ _ _ _ _ f NB), value_bind.
  destruct (value (ArrRunupTAW2002.calculate_adjusted_influence_roughness_gamma_f f (lit 1%R) k)); reflexivity.
Qed.

Definition v_ksi2018 (i : nat) : num := CorePhysics.calculate_Iribarren_number_ksi (place i Hm0) (place i Tmm10) (place i cot).
Definition v_adj2018 (i : nat) : num := RunupTAW2002.calculate_adjusted_influence_roughness_gamma_f (place i f) #1%num (v_ksi2018 i).

Lemma scalar_factors2018 sh i gb : stretches (shape cot) sh -> inside sh i ->
  value (OvertoppingEurotop2018.berm_and_roughness (place i Hm0) (place i Tmm10) (place i cot) (place i down) (place i up) (place i B) (place i db) (place i f) gb)
  = Ok (v_ksi2018 i, #1%num, v_adj2018 i).
Proof.
  intros S I. unfold OvertoppingEurotop2018.berm_and_roughness. unfold RunupTAW2002.calculate_berm_length.
  rewrite (single_slope_at cot down up sh i) by assumption. rewrite (zero_place B i NB). rewrite !bind_ret_l. cbv zeta iota.
  rewrite value_bind, no_berm_at. reflexivity.
Qed.

(** *** The discharge *)
Definition q_eq (gb : nums) : M nums :=
  (k <- calculate_Iribarren_number_ksi Hm0 Tmm10 cot ;;
   adj <- ArrRunupTAW2002.calculate_adjusted_influence_roughness_gamma_f f (lit 1%R) k ;;
   (float d4 / asqrt (#1 / cot)) * k * (lit 1%R : nums)
    * aexp (- #1 * apow (float d1 * (r / Hm0) * (#1 / (k * (lit 1%R : nums) * adj * gb * v))) #1.3))%arr.
Definition vq_eq (gb : nums) (i : nat) : num :=
  ((d4 / nsqrt (#1 / place i cot)) * v_ksi2018 i * #1
    * nexp (- #1 * npow (d1 * (place i r / place i Hm0) * (#1 / (v_ksi2018 i * #1 * v_adj2018 i * place i gb * place i v))) #1.3))%num.
Definition vq_max (gb : nums) (i : nat) : num :=
  OvertoppingEurotop2018.q_diml_max_equation (place i Hm0) (place i r) (place i gb) (place i f) (place i star) d2 d3.

Let q_args := [Hm0; Tmm10; r; ob; f; cot; v].
Let q_most := [Hm0; r; ob; f; star].
Let q_call := ArrOvertoppingEurotop2018.calculate_dimensionless_overtopping_discharge_q Hm0 Tmm10 r beta gamma_beta gamma_b f v star B db cot down up c1 c2 c3 c4 best.

Lemma q_stack gb : value (ArrOvertoppingEurotop2018.factor_beta beta gamma_beta f) = Ok gb ->
  value q_call = value (stack (q_eq gb) (ArrOvertoppingEurotop2018.q_diml_max_equation Hm0 r gb f star d2 d3)).
Proof.
  intros E. unfold q_call, ArrOvertoppingEurotop2018.calculate_dimensionless_overtopping_discharge_q. rewrite best_eq.
  rewrite value_bind, E, value_bind, (slope_single _ _ _ _ _ _ _ _ _ _ FC SN), factors2018.
  unfold stack, q_eq. rewrite !value_bind.
  destruct (value (calculate_Iribarren_number_ksi Hm0 Tmm10 cot)) as [k|]; [|reflexivity]. rewrite !value_bind.
  destruct (value (ArrRunupTAW2002.calculate_adjusted_influence_roughness_gamma_f f (lit 1%R) k)) as [adj|]; [|reflexivity].
  cbn [ArrOvertoppingEurotop2018.fac_ksi ArrOvertoppingEurotop2018.fac_gamma_b ArrOvertoppingEurotop2018.fac_gamma_f].
  rewrite value_bind. reflexivity.
Qed.
Lemma q_eq_expression gb : shape gb = shape ob -> expression q_args (q_eq gb) (vq_eq gb).
Proof.
  intros S. apply (shapes_expression [Hm0; Tmm10; r; gb; f; cot; v] _ _ (vq_eq gb)); [unfold q_args; cbn [map]; rewrite S; reflexivity| |intros; reflexivity].
  unfold q_eq, vq_eq. expression_tac.
Qed.
Lemma q_max_expression gb : shape gb = shape ob ->
  expression q_most (ArrOvertoppingEurotop2018.q_diml_max_equation Hm0 r gb f star d2 d3) (vq_max gb).
Proof.
  intros S. apply (shapes_expression [Hm0; r; gb; f; star] _ _ (vq_max gb)); [unfold q_most; cbn [map]; rewrite S; reflexivity| |intros; reflexivity].
  unfold ArrOvertoppingEurotop2018.q_diml_max_equation, vq_max, OvertoppingEurotop2018.q_diml_max_equation. expression_tac.
Qed.
Lemma q_scalar gb sh i : (forall sh i, stretches (shape ob) sh -> inside sh i ->
     value (OvertoppingEurotop2018.factor_beta (place i beta) (place i gamma_beta) (place i f)) = Ok (place i gb)) ->
  common q_args sh -> inside sh i ->
  value (OvertoppingEurotop2018.calculate_dimensionless_overtopping_discharge_q (place i Hm0) (place i Tmm10) (place i r) (place i beta) (place i gamma_beta)
    (place i gamma_b) (place i f) (place i v) (place i star) (place i B) (place i db) (place i cot) (place i down) (place i up) c1 c2 c3 c4 best)
  = Ok (nmin (vq_eq gb i) (vq_max gb i), neqb (nmin (vq_eq gb i) (vq_max gb i)) (vq_max gb i)).
Proof.
  intros V (F & _) I. unfold q_args in F. args_tac.
  unfold OvertoppingEurotop2018.calculate_dimensionless_overtopping_discharge_q. rewrite best_eq.
  rewrite value_bind, (V sh i) by assumption. rewrite value_bind, (slope_single_at sh) by assumption.
  rewrite value_bind, (scalar_factors2018 sh) by assumption. reflexivity.
Qed.

Lemma q2018 : flagged_both q_args q_most q_call
  (fun at_ => value (OvertoppingEurotop2018.calculate_dimensionless_overtopping_discharge_q (at_ Hm0) (at_ Tmm10) (at_ r) (at_ beta) (at_ gamma_beta)
    (at_ gamma_b) (at_ f) (at_ v) (at_ star) (at_ B) (at_ db) (at_ cot) (at_ down) (at_ up) c1 c2 c3 c4 best)).
Proof.
  destruct (beta2018 beta gamma_beta f ob OB) as (gb & E & S & V).
  eapply flagged_both_intro; [apply q_stack, E|apply q_eq_expression, S|apply q_max_expression, S|].
  intros sh i C C' I. apply (q_scalar gb sh i V C I).
Qed.
Lemma q2018_dim g : flagged_both q_args q_most
  (ArrOvertoppingEurotop2018.calculate_overtopping_discharge_q Hm0 Tmm10 r beta gamma_beta gamma_b f v star B db cot down up c1 c2 c3 c4 best (float g))
  (fun at_ => value (OvertoppingEurotop2018.calculate_overtopping_discharge_q (at_ Hm0) (at_ Tmm10) (at_ r) (at_ beta) (at_ gamma_beta)
    (at_ gamma_b) (at_ f) (at_ v) (at_ star) (at_ B) (at_ db) (at_ cot) (at_ down) (at_ up) c1 c2 c3 c4 best g)).
Proof.
  destruct (beta2018 beta gamma_beta f ob OB) as (gb & E & S & V).
  unfold ArrOvertoppingEurotop2018.calculate_overtopping_discharge_q.
  eapply (flagged_both_times _ _ q_call _ _ _ _ _ (fun i => nsqrt (g * npow (place i Hm0) #3)%num));
    [apply q_stack, E|apply q_eq_expression, S|apply q_max_expression, S| |].
  - intros sh (F & _) _. unfold q_args in F. args_tac. unfold float. autounfold with arrays. eapply den_ext; [den_tac|intros; reflexivity].
  - intros sh i C C' I. cbv beta. unfold OvertoppingEurotop2018.calculate_overtopping_discharge_q. rewrite value_bind, (q_scalar gb sh i V C I). reflexivity.
Qed.

(** *** The crest freeboard *)
Variable g : num.
Definition Rc_eq (gb : nums) : M nums :=
  (k <- calculate_Iribarren_number_ksi Hm0 Tmm10 cot ;;
   adj <- ArrRunupTAW2002.calculate_adjusted_influence_roughness_gamma_f f (lit 1%R) k ;;
   apow (- alog ((r / asqrt (float g * apow Hm0 #3)) * asqrt (#1 / cot) * (#1 / float d4) * (#1 / ((lit 1%R : nums) * k)))) (#1 / #1.3)
    * (#1 / float d1) * k * (lit 1%R : nums) * adj * gb * v)%arr.
Definition Rc_max (gb st : nums) : M nums :=
  (k <- calculate_Iribarren_number_ksi Hm0 Tmm10 cot ;;
   adj <- ArrRunupTAW2002.calculate_adjusted_influence_roughness_gamma_f f (lit 1%R) k ;;
   ArrOvertoppingEurotop2018.Rc_diml_max_equation Hm0 r gb adj st d2 d3 (float g))%arr.
Definition vRc_eq (gb : nums) (i : nat) : num :=
  (npow (- nlog ((place i r / nsqrt (g * npow (place i Hm0) #3)) * nsqrt (#1 / place i cot) * (#1 / d4) * (#1 / (#1 * v_ksi2018 i)))) (#1 / #1.3)
    * (#1 / d1) * v_ksi2018 i * #1 * v_adj2018 i * place i gb * place i v)%num.
Definition vRc_max (gb : nums) (st : nums) (i : nat) : num :=
  OvertoppingEurotop2018.Rc_diml_max_equation (place i Hm0) (place i r) (place i gb) (v_adj2018 i) (place i st) d2 d3 g.

Let Rc_most := [Hm0; Tmm10; r; ob; f; cot; star].
Let Rc_call := ArrOvertoppingEurotop2018.calculate_dimensionless_crest_freeboard Hm0 Tmm10 r beta gamma_beta gamma_b f v star B db cot down up c1 c2 c3 c4 best (float g).

Lemma Rc_stack gb : value (ArrOvertoppingEurotop2018.factor_beta beta gamma_beta f) = Ok gb ->
  value Rc_call = value (stack (Rc_eq gb) (Rc_max gb star)).
Proof.
  intros E. unfold Rc_call, ArrOvertoppingEurotop2018.calculate_dimensionless_crest_freeboard. rewrite best_eq.
  rewrite value_bind, E, value_bind, (slope_single _ _ _ _ _ _ _ _ _ _ FC SN), factors2018.
  unfold stack, Rc_eq, Rc_max. rewrite !value_bind.
  destruct (value (calculate_Iribarren_number_ksi Hm0 Tmm10 cot)) as [k|] eqn:EK; [|reflexivity]. rewrite !value_bind.
  destruct (value (ArrRunupTAW2002.calculate_adjusted_influence_roughness_gamma_f f (lit 1%R) k)) as [adj|] eqn:EA; [|reflexivity].
  rewrite value_bind. cbn [ArrOvertoppingEurotop2018.fac_ksi ArrOvertoppingEurotop2018.fac_gamma_b ArrOvertoppingEurotop2018.fac_gamma_f].
  match goal with |- match ?x with _ => _ end = _ => destruct x; [|reflexivity] end.
  rewrite !value_bind, EK, value_bind, EA. reflexivity.
Qed.
Lemma Rc_eq_expression gb : shape gb = shape ob -> expression q_args (Rc_eq gb) (vRc_eq gb).
Proof.
  intros S. apply (shapes_expression [Hm0; Tmm10; r; gb; f; cot; v] _ _ (vRc_eq gb)); [unfold q_args; cbn [map]; rewrite S; reflexivity| |intros; reflexivity].
  unfold Rc_eq, vRc_eq. expression_tac.
Qed.
Lemma Rc_max_expression gb st : shape gb = shape ob -> expression [Hm0; Tmm10; r; ob; f; cot; st] (Rc_max gb st) (vRc_max gb st).
Proof.
  intros S. apply (shapes_expression [Hm0; Tmm10; r; gb; f; cot; st] _ _ (vRc_max gb st)); [cbn [map]; rewrite S; reflexivity| |intros; reflexivity].
  unfold Rc_max, ArrOvertoppingEurotop2018.Rc_diml_max_equation, vRc_max, OvertoppingEurotop2018.Rc_diml_max_equation. expression_tac.
Qed.
Lemma Rc_scalar gb sh i : (forall sh i, stretches (shape ob) sh -> inside sh i ->
     value (OvertoppingEurotop2018.factor_beta (place i beta) (place i gamma_beta) (place i f)) = Ok (place i gb)) ->
  common q_args sh -> inside sh i ->
  value (OvertoppingEurotop2018.calculate_dimensionless_crest_freeboard (place i Hm0) (place i Tmm10) (place i r) (place i beta) (place i gamma_beta)
    (place i gamma_b) (place i f) (place i v) (place i star) (place i B) (place i db) (place i cot) (place i down) (place i up) c1 c2 c3 c4 best g)
  = Ok (nmin (vRc_eq gb i) (vRc_max gb star i), neqb (nmin (vRc_eq gb i) (vRc_max gb star i)) (vRc_max gb star i)).
Proof.
  intros V (F & _) I. unfold q_args in F. args_tac.
  unfold OvertoppingEurotop2018.calculate_dimensionless_crest_freeboard. rewrite best_eq.
  rewrite value_bind, (V sh i) by assumption. rewrite value_bind, (slope_single_at sh) by assumption.
  rewrite value_bind, (scalar_factors2018 sh) by assumption. reflexivity.
Qed.
Lemma Rc2018 : flagged_both q_args Rc_most Rc_call
  (fun at_ => value (OvertoppingEurotop2018.calculate_dimensionless_crest_freeboard (at_ Hm0) (at_ Tmm10) (at_ r) (at_ beta) (at_ gamma_beta)
    (at_ gamma_b) (at_ f) (at_ v) (at_ star) (at_ B) (at_ db) (at_ cot) (at_ down) (at_ up) c1 c2 c3 c4 best g)).
Proof.
  destruct (beta2018 beta gamma_beta f ob OB) as (gb & E & S & V).
  eapply flagged_both_intro; [apply Rc_stack, E|apply Rc_eq_expression, S|apply Rc_max_expression, S|].
  intros sh i C C' I. apply (Rc_scalar gb sh i V C I).
Qed.
Lemma Rc2018_dim : flagged_both q_args Rc_most
  (ArrOvertoppingEurotop2018.calculate_crest_freeboard_Rc Hm0 Tmm10 r beta gamma_beta gamma_b f v star B db cot down up c1 c2 c3 c4 best (float g))
  (fun at_ => value (OvertoppingEurotop2018.calculate_crest_freeboard_Rc (at_ Hm0) (at_ Tmm10) (at_ r) (at_ beta) (at_ gamma_beta)
    (at_ gamma_b) (at_ f) (at_ v) (at_ star) (at_ B) (at_ db) (at_ cot) (at_ down) (at_ up) c1 c2 c3 c4 best g)).
Proof.
  destruct (beta2018 beta gamma_beta f ob OB) as (gb & E & S & V).
  unfold ArrOvertoppingEurotop2018.calculate_crest_freeboard_Rc.
  eapply (flagged_both_times _ _ Rc_call _ _ _ _ _ (fun i => place i Hm0));
    [apply Rc_stack, E|apply Rc_eq_expression, S|apply Rc_max_expression, S| |].
  - intros sh (F & _) _. unfold q_args in F. args_tac. eapply den_ext; [den_tac|intros; reflexivity].
  - intros sh i C C' I. cbv beta. unfold OvertoppingEurotop2018.calculate_crest_freeboard_Rc. rewrite value_bind, (Rc_scalar gb sh i V C I). reflexivity.
Qed.
End Eurotop2018.

(** *** Rubble mounds *)
Section RubbleMound2018.
Variables (Hm0 Tmm10 r beta gamma_beta f B db cot down up ob : nums) (c2 c3 : num) (best : bool) (g : num).
Hypotheses (FC : filled cot) (SN : missing down \/ missing up) (OB : oblique_with beta gamma_beta f ob).

Let d := OvertoppingEurotop2018.check_best_fit NaN c2 c3 NaN best.
Let d1 := fst (fst (fst d)).
Let d2 := snd (fst (fst d)).
Let d3 := snd (fst d).
Let d4 := snd d.
Let best_eq : OvertoppingEurotop2018.check_best_fit NaN c2 c3 NaN best = (d1, d2, d3, d4).
Proof. unfold d1, d2, d3, d4, d. destruct (OvertoppingEurotop2018.check_best_fit NaN c2 c3 NaN best) as [[[? ?] ?] ?]. reflexivity. Qed.

Let args := [Hm0; Tmm10; r; ob; f; cot].
Let adjusted (last : nums -> M nums) : M nums :=
  k <- calculate_Iribarren_number_ksi Hm0 Tmm10 cot ;;
  adj <- ArrRunupTAW2002.calculate_adjusted_influence_roughness_gamma_f f (lit 1%R) k ;; last adj.
Let v_adj i := v_adj2018 Hm0 Tmm10 f cot i.

Lemma check_rubble (x : nums) : value (ArrOvertoppingEurotop2018.check_validity_range_rubble_mound x) = Ok tt.
Proof.
  assert (W : widens (shape x) (shape x)) by apply stretches_refl.
  unfold ArrOvertoppingEurotop2018.check_validity_range_rubble_mound. runs_tac.
Qed.
Lemma checked (e : M nums) : value (x <- e ;; ArrOvertoppingEurotop2018.check_validity_range_rubble_mound cot ;; ret x) = value e.
Proof.
  rewrite value_bind. destruct (value e) as [x|]; [|reflexivity]. rewrite value_bind, check_rubble. reflexivity.
Qed.

Ltac expression_rm S gb v :=
  apply (shapes_expression [Hm0; Tmm10; r; gb; f; cot] _ _ v); [unfold args; cbn [map]; rewrite S; reflexivity| |intros; reflexivity];
  unfold adjusted, v_adj, v_adj2018, v_ksi2018, ArrOvertoppingEurotop2018.q_diml_max_equation, ArrOvertoppingEurotop2018.Rc_diml_max_equation,
    OvertoppingEurotop2018.q_diml_max_equation, OvertoppingEurotop2018.Rc_diml_max_equation; expression_tac.
Lemma adjusted_checked (last : nums -> M nums) :
  value (k <- calculate_Iribarren_number_ksi Hm0 Tmm10 cot ;;
         adj <- ArrRunupTAW2002.calculate_adjusted_influence_roughness_gamma_f f (lit 1%R) k ;;
         x <- last adj ;; ArrOvertoppingEurotop2018.check_validity_range_rubble_mound cot ;; ret x)
  = value (adjusted last).
Proof.
  unfold adjusted. rewrite !value_bind. destruct (value (calculate_Iribarren_number_ksi Hm0 Tmm10 cot)) as [k|]; [|reflexivity].
  rewrite !value_bind. destruct (value (ArrRunupTAW2002.calculate_adjusted_influence_roughness_gamma_f f (lit 1%R) k)) as [adj|]; [|reflexivity].
  apply checked.
Qed.

Let q_call := ArrOvertoppingEurotop2018.calculate_dimensionless_overtopping_discharge_q_rubble_mound Hm0 Tmm10 r beta gamma_beta f B db cot down up c2 c3 best.
Let star := float OvertoppingEurotop2018.gamma_star_default.
Let q_expr (gb : nums) := adjusted (fun adj => ArrOvertoppingEurotop2018.q_diml_max_equation Hm0 r gb adj star d2 d3).
Let vq (gb : nums) i := OvertoppingEurotop2018.q_diml_max_equation (place i Hm0) (place i r) (place i gb) (v_adj i) OvertoppingEurotop2018.gamma_star_default d2 d3.
Lemma q_rm gb : value (ArrOvertoppingEurotop2018.factor_beta beta gamma_beta f) = Ok gb -> value q_call = value (q_expr gb).
Proof.
  intros E. unfold q_call, ArrOvertoppingEurotop2018.calculate_dimensionless_overtopping_discharge_q_rubble_mound. rewrite best_eq.
  rewrite value_bind, E, value_bind, (slope_single _ _ _ _ _ _ _ _ _ _ FC SN). apply adjusted_checked.
Qed.
Lemma q_rm_scalar gb sh i : (forall sh i, stretches (shape ob) sh -> inside sh i ->
     value (OvertoppingEurotop2018.factor_beta (place i beta) (place i gamma_beta) (place i f)) = Ok (place i gb)) ->
  Forall (fun a => stretches (shape a) sh) args -> inside sh i ->
  value (OvertoppingEurotop2018.calculate_dimensionless_overtopping_discharge_q_rubble_mound (place i Hm0) (place i Tmm10) (place i r) (place i beta)
    (place i gamma_beta) (place i f) (place i B) (place i db) (place i cot) (place i down) (place i up) c2 c3 best) = Ok (vq gb i).
Proof.
  intros V F I. unfold args in F. args_tac. unfold OvertoppingEurotop2018.calculate_dimensionless_overtopping_discharge_q_rubble_mound. rewrite best_eq.
  rewrite value_bind, (V sh i) by assumption. rewrite value_bind, (slope_single_at sh) by assumption.
  unfold OvertoppingEurotop2018.check_validity_range_rubble_mound. cbv zeta. mchecks. reflexivity.
Qed.
Lemma q_rm2018 : place_by_place args q_call
  (fun at_ => value (OvertoppingEurotop2018.calculate_dimensionless_overtopping_discharge_q_rubble_mound (at_ Hm0) (at_ Tmm10) (at_ r) (at_ beta)
    (at_ gamma_beta) (at_ f) (at_ B) (at_ db) (at_ cot) (at_ down) (at_ up) c2 c3 best)).
Proof.
  destruct (beta2018 beta gamma_beta f ob OB) as (gb & E & S & V).
  eapply (place_by_place_intro _ _ (q_expr gb)); [apply q_rm, E| |intros sh i F I; apply (q_rm_scalar gb sh i V F I)].
  unfold q_expr, vq, star. expression_rm S gb (vq gb).
Qed.
Lemma q_rm2018_dim : place_by_place args
  (ArrOvertoppingEurotop2018.calculate_overtopping_discharge_q_rubble_mound Hm0 Tmm10 r beta gamma_beta f B db cot down up c2 c3 best (float g))
  (fun at_ => value (OvertoppingEurotop2018.calculate_overtopping_discharge_q_rubble_mound (at_ Hm0) (at_ Tmm10) (at_ r) (at_ beta)
    (at_ gamma_beta) (at_ f) (at_ B) (at_ db) (at_ cot) (at_ down) (at_ up) c2 c3 best g)).
Proof.
  destruct (beta2018 beta gamma_beta f ob OB) as (gb & E & S & V).
  eapply (place_by_place_intro _ _ (x <- q_expr gb ;; (x * asqrt (float g * apow Hm0 #3))%arr)).
  - unfold ArrOvertoppingEurotop2018.calculate_overtopping_discharge_q_rubble_mound. fold q_call.
    rewrite value_bind, (q_rm gb E), value_bind. reflexivity.
  - unfold q_expr, vq, star. expression_rm S gb (fun i => (vq gb i * nsqrt (g * npow (place i Hm0) #3))%num).
  - intros sh i F I. cbv beta. unfold OvertoppingEurotop2018.calculate_overtopping_discharge_q_rubble_mound.
    rewrite value_bind, (q_rm_scalar gb sh i V F I). reflexivity.
Qed.

Let Rc_call := ArrOvertoppingEurotop2018.calculate_dimensionless_crest_freeboard_rubble_mound Hm0 Tmm10 r beta gamma_beta f B db cot down up c2 c3 best (float g).
Let Rc_expr (gb : nums) := adjusted (fun adj => ArrOvertoppingEurotop2018.Rc_diml_max_equation Hm0 r gb adj star d2 d3 (float g)).
Let vRc (gb : nums) i := OvertoppingEurotop2018.Rc_diml_max_equation (place i Hm0) (place i r) (place i gb) (v_adj i) OvertoppingEurotop2018.gamma_star_default d2 d3 g.
Lemma Rc_rm gb : value (ArrOvertoppingEurotop2018.factor_beta beta gamma_beta f) = Ok gb -> value Rc_call = value (Rc_expr gb).
Proof.
  intros E. unfold Rc_call, ArrOvertoppingEurotop2018.calculate_dimensionless_crest_freeboard_rubble_mound. rewrite best_eq.
  rewrite value_bind, E, value_bind, (slope_single _ _ _ _ _ _ _ _ _ _ FC SN). apply adjusted_checked.
Qed.
Lemma Rc_rm_scalar gb sh i : (forall sh i, stretches (shape ob) sh -> inside sh i ->
     value (OvertoppingEurotop2018.factor_beta (place i beta) (place i gamma_beta) (place i f)) = Ok (place i gb)) ->
  Forall (fun a => stretches (shape a) sh) args -> inside sh i ->
  value (OvertoppingEurotop2018.calculate_dimensionless_crest_freeboard_rubble_mound (place i Hm0) (place i Tmm10) (place i r) (place i beta)
    (place i gamma_beta) (place i f) (place i B) (place i db) (place i cot) (place i down) (place i up) c2 c3 best g) = Ok (vRc gb i).
Proof.
  intros V F I. unfold args in F. args_tac. unfold OvertoppingEurotop2018.calculate_dimensionless_crest_freeboard_rubble_mound. rewrite best_eq.
  rewrite value_bind, (V sh i) by assumption. rewrite value_bind, (slope_single_at sh) by assumption.
  unfold OvertoppingEurotop2018.check_validity_range_rubble_mound. cbv zeta. mchecks. reflexivity.
Qed.
Lemma Rc_rm2018 : place_by_place args Rc_call
  (fun at_ => value (OvertoppingEurotop2018.calculate_dimensionless_crest_freeboard_rubble_mound (at_ Hm0) (at_ Tmm10) (at_ r) (at_ beta)
    (at_ gamma_beta) (at_ f) (at_ B) (at_ db) (at_ cot) (at_ down) (at_ up) c2 c3 best g)).
Proof.
  destruct (beta2018 beta gamma_beta f ob OB) as (gb & E & S & V).
  eapply (place_by_place_intro _ _ (Rc_expr gb)); [apply Rc_rm, E| |intros sh i F I; apply (Rc_rm_scalar gb sh i V F I)].
  unfold Rc_expr, vRc, star. expression_rm S gb (vRc gb).
Qed.
Lemma Rc_rm2018_dim : place_by_place args
  (ArrOvertoppingEurotop2018.calculate_crest_freeboard_Rc_rubble_mound Hm0 Tmm10 r beta gamma_beta f B db cot down up c2 c3 best (float g))
  (fun at_ => value (OvertoppingEurotop2018.calculate_crest_freeboard_Rc_rubble_mound (at_ Hm0) (at_ Tmm10) (at_ r) (at_ beta)
    (at_ gamma_beta) (at_ f) (at_ B) (at_ db) (at_ cot) (at_ down) (at_ up) c2 c3 best g)).
Proof.
  destruct (beta2018 beta gamma_beta f ob OB) as (gb & E & S & V).
  eapply (place_by_place_intro _ _ (x <- Rc_expr gb ;; (x * Hm0)%arr)).
  - unfold ArrOvertoppingEurotop2018.calculate_crest_freeboard_Rc_rubble_mound. fold Rc_call.
    rewrite value_bind, (Rc_rm gb E), value_bind. reflexivity.
  - unfold Rc_expr, vRc, star. expression_rm S gb (fun i => (vRc gb i * place i Hm0)%num).
  - intros sh i F I. cbv beta. unfold OvertoppingEurotop2018.calculate_crest_freeboard_Rc_rubble_mound.
    rewrite value_bind, (Rc_rm_scalar gb sh i V F I). reflexivity.
Qed.
End RubbleMound2018.

(** ** Calls that stop *)
Section Stopping2018.
Variables (Hm0 Tmm10 beta gamma_beta f B db cot down up : nums).

(** The roughness decides which coefficient to use: it is one number. *)
Lemma beta_several n : missing gamma_beta -> filled beta -> shape f = Some n -> n <> 1 ->
  stops (ArrOvertoppingEurotop2018.factor_beta beta gamma_beta f).
Proof.
  intros N F E M. unfold ArrOvertoppingEurotop2018.factor_beta. rewrite (calculate_beta_missing _ _ N F), bind_ret_l.
  unfold stops. apply (oblique2018_several _ _ n); assumption.
Qed.
Lemma tame_oblique2018 crit cs cr m : tame (ArrRunupEurotop2018.calculate_influence_oblique_waves_gamma_beta beta f crit cs cr m).
Proof.
  unfold ArrRunupEurotop2018.calculate_influence_oblique_waves_gamma_beta, float.
  apply tame_bind; [tame_tac|]. intros b _. autounfold with arrays. tame_tac.
Qed.
Lemma tame_beta2018 : tame (ArrOvertoppingEurotop2018.factor_beta beta gamma_beta f).
Proof.
  unfold ArrOvertoppingEurotop2018.factor_beta. apply tame_bind; [apply tame_check_calculate|]. intros c _.
  destruct c; [apply tame_oblique2018|tame_tac].
Qed.

Lemma slope_composite gb best : filled down -> filled up -> all_finite Hm0 -> Exists is_array [Hm0; db; B; down; up] ->
  stops (ArrOvertoppingEurotop2018.slope Hm0 Tmm10 cot down up B db f gb best).
Proof.
  intros FD FU FH X. unfold ArrOvertoppingEurotop2018.slope. rewrite (composite_slope _ _ _ FD FU), bind_ret_l.
  apply stops_first. unfold ArrRunupEurotop2018.iteration_procedure_z2p.
  destruct (RunupEurotop2018.check_best_fit RunupEurotop2018.c1_default RunupEurotop2018.c2_default RunupEurotop2018.c3_default RunupEurotop2018.c4_default best) as [[[e1 e2] e3] e4].
  unfold RunupEurotop2018.tolerance_default. apply search_arrays; auto. lra.
Qed.

Lemma berm_stops ob gb : oblique_with beta gamma_beta f ob -> value (ArrOvertoppingEurotop2018.factor_beta beta gamma_beta f) = Ok gb ->
  filled cot -> missing down \/ missing up ->
  all_positive B -> all_positive Hm0 -> all_positive cot -> Exists is_array [Hm0; Tmm10; ob; f; cot; B; db] ->
  stops (ArrOvertoppingEurotop2018.berm_and_roughness Hm0 Tmm10 cot down up B db f gb).
Proof.
  intros OB Eg FC SN PB PH PC A. destruct (beta2018 _ _ _ _ OB) as (gb' & Eg' & G & _).
  pose proof (eq_trans (eq_sym Eg) Eg') as J. injection J as <-. clear Eg'.
  unfold ArrOvertoppingEurotop2018.berm_and_roughness.
  apply stops_then; [autounfold with arrays; tame_tac|]. intros k Ek.
  apply stops_then; [apply tame_berm_length|]. intros L EL. apply stops_first.
  unfold ArrRunupTAW2002.calculate_berm_length in EL. rewrite (single_slope _ _ _ FC SN), bind_ret_l in EL. cbv zeta iota in EL.
  unfold ArrRunupEurotop2018.iteration_procedure_gamma_b.
  destruct (RunupEurotop2018.check_best_fit RunupEurotop2018.c1_default RunupEurotop2018.c2_default RunupEurotop2018.c3_default RunupEurotop2018.c4_default false) as [[[e1 e2] e3] e4].
  unfold ArrRunupTAW2002.iteration_procedure_gamma_b. change RunupTAW2002.depth_limit with (S 299). apply berm_search_arrays.
  - apply tame_single.
  - intros w W. unfold all_positive in PB. unfold one_number in W. rewrite W in PB. inversion PB; subst. destruct H1 as (r & -> & P).
    cbn. apply Reqb_false. lra.
  - intros l Q. assert (U : uses (lit 1%R * Hm0 * cot + B + lit 1%R * Hm0 * cot)%arr [shape Hm0; shape cot; shape B]) by (eapply uses_incl; [uses_tac|incl_tac]).
    pose proof (U _ EL) as F. clear U. args_tac.
    assert (D : den (shape L) (lit 1%R * Hm0 * cot + B + lit 1%R * Hm0 * cot)%arr
      (fun i => (#1 * place i Hm0 * place i cot + place i B + #1 * place i Hm0 * place i cot)%num)) by (eapply den_ext; [den_tac|intros; reflexivity]).
    destruct D as (L' & EL' & _ & V). pose proof (eq_trans (eq_sym EL) EL') as J. injection J as <-.
    assert (I : inside (shape L) 0) by (destruct L as [y|[|y l']]; cbn; try exact Logic.I; try discriminate Q; lia).
    specialize (V 0 I). assert (P : place 0 L = l) by (destruct L as [y|[|y [|? ?]]]; try discriminate Q; injection Q as ->; reflexivity).
    unfold place at 1 in P. rewrite V in P. rewrite <- P.
    destruct (positive_place Hm0 (shape L) 0) as (h & -> & P1); auto. destruct (positive_place cot (shape L) 0) as (c & -> & P2); auto.
    destruct (positive_place B (shape L) 0) as (w & -> & P3); auto.
    cbn. apply Reqb_false. assert (0 < h * c)%R by (apply Rmult_lt_0_compat; auto). nra.
  - intros z m Ez.
    assert (Y : Exists is_array [Hm0; Tmm10; gb; f; cot] \/ Exists is_array [B; db]).
    { rewrite !Exists_cons in *. rewrite !Exists_nil in *. unfold is_array in *. rewrite G. intuition. }
    destruct Y as [Y|Y].
    + pose proof (single_uses _ _ _ _ _ _ _ _ _ _ _ _ _ Ez Y). rewrite !Exists_cons. tauto.
    + rewrite !Exists_cons in *. rewrite !Exists_nil in *. tauto.
Qed.
End Stopping2018.

(** ** The run-up *)
Lemma filled_from (a : nums) : (exists i, inside (shape a) i) -> (forall i, inside (shape a) i -> isnan (place i a) = false) -> filled a.
Proof.
  intros (i & I) H. destruct a as [x|l].
  - split; [discriminate|]. constructor; [exact (H 0 Logic.I)|constructor].
  - split; [cbn; destruct l; [cbn in I; lia|discriminate]|]. cbn [entries]. apply Forall_forall. intros x X.
    apply In_nth_error in X as (n & E). assert (K : inside (shape (Ar l)) n) by (cbn; apply nth_error_Some; congruence).
    specialize (H n K). destruct l as [|y [|z l]]; [destruct n; discriminate| |].
    + destruct n as [|[|n]]; cbn in E; try discriminate. injection E as <-. exact H.
    + unfold place in H. cbn [at_] in H. rewrite E in H. exact H.
Qed.
Lemma filled_inside (a : nums) : filled a -> exists i, inside (shape a) i.
Proof. intros (N & _). exists 0. destruct a as [x|[|x l]]; cbn; try exact Logic.I; [contradiction N; reflexivity|lia]. Qed.

Lemma oblique_number b c m : isnan b = false -> isnan (RunupTAW2002.calculate_influence_oblique_waves_gamma_beta b (Fin c) (Fin m)) = false.
Proof.
  intros N. unfold RunupTAW2002.calculate_influence_oblique_waves_gamma_beta. destruct b as [x| | |]; try discriminate N; cbn;
    repeat match goal with |- context [Rltb ?a ?b] => destruct (Rltb a b); cbn end; reflexivity.
Qed.

Lemma answers_times sh call scalar (e : M nums) u scalar' : answers sh call scalar -> den sh e u ->
  (forall i z b, inside sh i -> scalar (place i) = Ok (z, b) -> scalar' (place i) = Ok ((z * u i)%num, b)) ->
  answers sh (d <- call ;; z <- (fst d * e)%arr ;; ret (z, snd d)) scalar'.
Proof.
  intros (r & m & E & Sr & Sm & V) D H.
  assert (G : gives sh call (fun i => place i r) (fun i => match at_ m i with Some b => b | None => false end)).
  { exists r, m. split; [exact E|]. split; [exact Sr|]. split; [exact Sm|]. intros i I. destruct (V i I) as (b & Eb & _). rewrite Eb.
    split; [|reflexivity]. destruct (at_some r sh i) as (x & Ex); [rewrite Sr; apply stretches_refl|exact I|]. unfold place. rewrite Ex. reflexivity. }
  eapply gives_answers; [exact (gives_times _ _ _ _ _ _ G D)|]. intros i I. destruct (V i I) as (b & Eb & Es). rewrite Eb. apply H; assumption.
Qed.
