From Coq Require Import Reals List Bool Arith Lia Lra FunctionalExtensionality.
From Verif.Lib Require Import Num Monad Arr ArrFlags ArrLoop RTac NTac.
From Verif.Spec Require Import Arrays ArrayFlags.
From Verif.Proofs Require Import Core CheckTac Arrays ArrayLoops ArrayFlags ArrayTaw.
From Verif.Model Require CorePhysics RunupTAW2002 OvertoppingTAW2002 ArrRunupTAW2002.
From Verif.Model Require Import CoreUtility ArrCore ArrOvertoppingTAW2002.
Import ListNotations.
Open Scope nat_scope.

(** ** Influence factors for a single slope *)

Definition beta_expr (beta gamma_beta ob gb : nums) : Prop :=
  (filled gamma_beta /\ gb = ob)
  \/ (missing gamma_beta
      /\ value (ArrRunupTAW2002.calculate_influence_oblique_waves_gamma_beta ob OvertoppingTAW2002.c_gamma_beta_default
                  OvertoppingTAW2002.max_angle_default) = Ok gb).

Section Factors.
Variables (Hm0 Tmm10 cot down up beta B db gamma_beta gamma_b f ob bf : nums).
Hypotheses (FC : filled cot) (SN : missing down \/ missing up) (OB : oblique_by beta gamma_beta ob) (BF : berm_by gamma_b B bf).

Let factors := influence_factors Hm0 Tmm10 cot down up beta B db gamma_beta gamma_b f.

(** What is left of the computation *)
Definition factors_left : M ArrOvertoppingTAW2002.factors :=
  gb <- (if all_nan gamma_beta
         then ArrRunupTAW2002.calculate_influence_oblique_waves_gamma_beta ob OvertoppingTAW2002.c_gamma_beta_default
                OvertoppingTAW2002.max_angle_default
         else value_of ob) ;;
  ksi <- calculate_Iribarren_number_ksi Hm0 Tmm10 cot ;;
  adj <- ArrRunupTAW2002.calculate_adjusted_influence_roughness_gamma_f f bf ksi ;;
  ret {| fac_gamma_beta := gb; fac_cot_alpha := cot; fac_ksi := ksi; fac_gamma_b := bf; fac_gamma_f := adj |}.

Lemma factors_same : value factors = value factors_left.
Proof.
  unfold factors, influence_factors, factors_left.
  assert (K : forall k : nums -> M ArrOvertoppingTAW2002.factors,
    value (calculate_gamma_beta <- ArrRunupTAW2002.check_calculate_gamma_beta beta gamma_beta ;;
           gb <- (if calculate_gamma_beta : bool
                  then calculate_influence_oblique_waves_gamma_beta beta OvertoppingTAW2002.c_gamma_beta_default OvertoppingTAW2002.max_angle_default
                  else value_of gamma_beta) ;; k gb)
    = value (gb <- (if all_nan gamma_beta
         then ArrRunupTAW2002.calculate_influence_oblique_waves_gamma_beta ob OvertoppingTAW2002.c_gamma_beta_default
                OvertoppingTAW2002.max_angle_default
         else value_of ob) ;; k gb)).
  { intros k. destruct OB as [(F & ->)|(N & F & ->)].
    - rewrite (calculate_beta_given _ _ F), bind_ret_l, (filled_not_all _ F). reflexivity.
    - rewrite (calculate_beta_missing _ _ N F), bind_ret_l, (missing_all _ N). reflexivity. }
  rewrite K. rewrite !value_bind. destruct (value (if all_nan gamma_beta then _ else _)) as [gb|e]; [|reflexivity].
  rewrite (single_slope _ _ _ FC SN), bind_ret_l. unfold value_of at 1. rewrite bind_ret_l.
  rewrite !value_bind. destruct (value (calculate_Iribarren_number_ksi Hm0 Tmm10 cot)) as [k|e] eqn:EK; [|reflexivity].
  destruct BF as (x & O & [(X & ->)|(X & EB & ->)]); rewrite (one_given _ _ O), X, bind_ret_l.
  - unfold value_of at 1. rewrite bind_ret_l. reflexivity.
  - rewrite EB. assert (U : uses (calculate_Iribarren_number_ksi Hm0 Tmm10 cot) [shape Hm0; shape Tmm10; shape cot]).
    { autounfold with arrays. eapply uses_incl; [uses_tac|incl_tac]. }
    apply U in EK. args_tac. clear U.
    assert (L : exists l, value (ArrRunupTAW2002.calculate_berm_length Hm0 (lit 0%R) cot down up) = Ok l).
    { unfold ArrRunupTAW2002.calculate_berm_length. rewrite (single_slope _ _ _ FC SN), bind_ret_l. cbv zeta iota.
      assert (D : den (shape k) (lit 1%R * Hm0 * cot + lit 0%R + lit 1%R * Hm0 * cot)%arr
        (fun i => (#1 * place i Hm0 * place i cot + #0 + #1 * place i Hm0 * place i cot)%num)).
      { eapply den_ext; [den_tac|intros; reflexivity]. }
      destruct D as (l & El & _). exists l. exact El. }
    destruct L as (l & El). rewrite value_bind.
    erewrite (value_bind (ArrRunupTAW2002.calculate_berm_length _ _ _ _ _)). rewrite El.
    assert (G : value (ArrRunupTAW2002.iteration_procedure_gamma_b Hm0 Tmm10 cot (lit 0%R) l db gb RunupTAW2002.c1_default RunupTAW2002.c2_default
                  RunupTAW2002.c3_default RunupTAW2002.c4_default false f) = Ok (lit 1%R)).
    { unfold ArrRunupTAW2002.iteration_procedure_gamma_b, ArrRunupTAW2002.iteration_procedure_gamma_b_body.
      apply (steps _ _ true); [|reflexivity]. apply (steps _ _ true); [|reflexivity].
      unfold holds, cmp, lift2, value_of, lit. rewrite !bind_ret_l. cbn [bcast]. rewrite bind_ret_l. cbn. rewrite (Reqb_true _ _ eq_refl). reflexivity. }
    rewrite G. reflexivity.
Qed.

Definition v_beta (i : nat) : num :=
  if isnan (place i gamma_beta)
  then RunupTAW2002.calculate_influence_oblique_waves_gamma_beta (place i beta) OvertoppingTAW2002.c_gamma_beta_default
         OvertoppingTAW2002.max_angle_default
  else place i gamma_beta.
Definition v_ksi (i : nat) : num := CorePhysics.calculate_Iribarren_number_ksi (place i Hm0) (place i Tmm10) (place i cot).
Definition v_adj (i : nat) : num := RunupTAW2002.calculate_adjusted_influence_roughness_gamma_f (place i f) (place i bf) (v_ksi i).

Lemma factors_ok sh : Forall (fun a => stretches (shape a) sh) [Hm0; Tmm10; ob; bf; f; cot] ->
  exists gb k adj : nums,
    value factors = Ok {| fac_gamma_beta := gb; fac_cot_alpha := cot; fac_ksi := k; fac_gamma_b := bf; fac_gamma_f := adj |}
    /\ stretches (shape gb) sh /\ stretches (shape k) sh /\ stretches (shape adj) sh
    /\ den sh (value_of gb) v_beta /\ den sh (value_of k) v_ksi /\ den sh (value_of adj) v_adj
    /\ stretches (shape ob) (shape gb) /\ Forall (fun s => stretches s (shape k)) [shape Hm0; shape Tmm10; shape cot]
    /\ Forall (fun s => stretches s (shape adj)) [shape bf; shape Hm0; shape Tmm10; shape cot; shape f].
Proof.
  intros F. args_tac. rewrite factors_same. unfold factors_left.
  name sh (ArrCore.calculate_Iribarren_number_ksi Hm0 Tmm10 cot) v_ksi [shape Hm0; shape Tmm10; shape cot] k.
  name sh (ArrRunupTAW2002.calculate_adjusted_influence_roughness_gamma_f f bf k) v_adj [shape bf; shape Hm0; shape Tmm10; shape cot; shape f] adj.
  destruct OB as [(FB & EO)|(N & FB & EO)].
  - exists ob, k, adj. rewrite (filled_not_all _ FB).
    split; [apply (steps _ _ ob); [reflexivity|]; apply (steps _ _ k _ Ek); apply (steps _ _ adj _ Eadj); reflexivity|].
    repeat (split; [assumption|]). split; [|repeat (split; [first [assumption|apply stretches_refl]|]); assumption].
    eapply den_ext; [apply den_leaf; assumption|]. intros i I. unfold v_beta. rewrite EO, (filled_place gamma_beta sh i); auto. rewrite <- EO. assumption.
  - name sh (ArrRunupTAW2002.calculate_influence_oblique_waves_gamma_beta ob OvertoppingTAW2002.c_gamma_beta_default OvertoppingTAW2002.max_angle_default)
      (fun i => RunupTAW2002.calculate_influence_oblique_waves_gamma_beta (place i ob) OvertoppingTAW2002.c_gamma_beta_default OvertoppingTAW2002.max_angle_default)
      [shape ob] gb.
    exists gb, k, adj. rewrite (missing_all _ N).
    split; [apply (steps _ _ gb _ Egb); apply (steps _ _ k _ Ek); apply (steps _ _ adj _ Eadj); reflexivity|].
    repeat (split; [assumption|]). assert (Kob : stretches (shape ob) (shape gb)) by (inversion Ugb; assumption). split; [|repeat (split; [assumption|]); assumption].
    eapply den_ext; [exact Dgb|]. intros i I. unfold v_beta. rewrite EO, (missing_place _ _ N). reflexivity.
Qed.

Lemma tame_factors : tame factors.
Proof.
  intros e E. rewrite factors_same in E. revert e E. change (tame factors_left). unfold factors_left.
  apply tame_bind; [destruct (all_nan gamma_beta); autounfold with arrays; tame_tac|]. intros gb _.
  autounfold with arrays. tame_tac.
Qed.

Lemma factors_inv fac : value factors = Ok fac ->
  fac_cot_alpha fac = cot /\ fac_gamma_b fac = bf /\ stretches (shape ob) (shape (fac_gamma_beta fac))
  /\ Forall (fun s => stretches s (shape (fac_ksi fac))) [shape Hm0; shape Tmm10; shape cot]
  /\ Forall (fun s => stretches s (shape (fac_gamma_f fac))) [shape bf; shape (fac_ksi fac); shape f].
Proof.
  rewrite factors_same. unfold factors_left. intros E. apply step in E as (gb & Eg & E). apply step in E as (k & Ek & E).
  apply step in E as (adj & Ea & E). injection E as <-. cbn [fac_cot_alpha fac_gamma_b fac_gamma_beta fac_ksi fac_gamma_f].
  split; [reflexivity|]. split; [reflexivity|]. split; [|split].
  - destruct (all_nan gamma_beta); [|injection Eg as <-; apply stretches_refl].
    assert (U : uses (ArrRunupTAW2002.calculate_influence_oblique_waves_gamma_beta ob OvertoppingTAW2002.c_gamma_beta_default OvertoppingTAW2002.max_angle_default) [shape ob]).
    { unfold float. autounfold with arrays. eapply uses_incl; [uses_tac|incl_tac]. }
    apply U in Eg. args_tac. assumption.
  - assert (U : uses (ArrCore.calculate_Iribarren_number_ksi Hm0 Tmm10 cot) [shape Hm0; shape Tmm10; shape cot]).
    { autounfold with arrays. eapply uses_incl; [uses_tac|incl_tac]. }
    exact (U _ Ek).
  - assert (U : uses (ArrRunupTAW2002.calculate_adjusted_influence_roughness_gamma_f f bf k) [shape bf; shape k; shape f]).
    { autounfold with arrays. eapply uses_incl; [uses_tac|incl_tac]. }
    exact (U _ Ea).
Qed.

(** The scalar function at one place *)
Lemma scalar_factors sh i : Forall (fun a => stretches (shape a) sh) [Hm0; Tmm10; ob; bf; f; cot] -> inside sh i ->
  value (OvertoppingTAW2002.influence_factors (place i Hm0) (place i Tmm10) (place i cot) (place i down) (place i up) (place i beta) (place i B) (place i db)
           (place i gamma_beta) (place i gamma_b) (place i f))
  = Ok (v_beta i, place i cot, v_ksi i, place i bf, v_adj i).
Proof.
  intros F I. args_tac. unfold OvertoppingTAW2002.influence_factors.
  assert (K : RunupTAW2002.check_calculate_gamma_beta (place i beta) (place i gamma_beta) = ret (isnan (place i gamma_beta))).
  { destruct OB as [(FB & EO)|(N & FB & EO)].
    - rewrite (filled_place gamma_beta sh i); auto; [|rewrite <- EO; assumption]. apply (beta_given_at gamma_beta sh); auto. rewrite <- EO. assumption.
    - replace (isnan (place i gamma_beta)) with true by (rewrite (missing_place _ _ N); reflexivity). apply (beta_missing_at beta gamma_beta sh); auto. rewrite <- EO. assumption. }
  rewrite K, bind_ret_l. cbv zeta. rewrite (single_slope_at cot down up sh i) by assumption. rewrite bind_ret_l, bind_ret_l.
  unfold v_beta, v_ksi, v_adj. fold (v_ksi i).
  destruct BF as (x & O & [(X & EBf)|(X & EB & EBf)]).
  - assert (P : place i gamma_b = x) by (apply (one_place _ _ sh); auto; rewrite <- EBf; assumption).
    rewrite EBf, P, X, bind_ret_l. reflexivity.
  - assert (P : isnan (place i gamma_b) = true).
    { destruct gamma_b as [y|[|y [|? ?]]]; try discriminate O; injection O as ->; [exact X|].
      unfold place. cbn. destruct i; cbn; [exact X|]. exact X. }
    rewrite P, EB, EBf. unfold RunupTAW2002.calculate_berm_length. rewrite (single_slope_at cot down up sh i) by assumption.
    rewrite !bind_ret_l. cbv iota.
    unfold RunupTAW2002.iteration_procedure_gamma_b, RunupTAW2002.iteration_procedure_gamma_b_body.
    replace (neqb (place i (lit 0%R)) #0%num) with true by (symmetry; exact (Reqb_true _ _ eq_refl)). cbn [orb]. rewrite bind_ret_l. reflexivity.
Qed.
End Factors.

(** A shape that is reached by arguments is reached by what is computed from them. *)
Lemma reached_by sh L L' : reached sh L -> Forall (fun t => stretches t sh) L' ->
  Forall (fun s => Exists (fun t => stretches s t) L') L -> reached sh L'.
Proof.
  intros [->|R] F E; [left; reflexivity|]. right. rewrite Forall_forall in E. specialize (E _ R).
  apply Exists_exists in E as (t & I & S). rewrite Forall_forall in F. rewrite (stretches_antisym sh t S (F t I)). exact I.
Qed.
Lemma reached_common args sh : common args sh -> reached sh (map shape args).
Proof.
  intros (_ & [->|E]); [left; reflexivity|]. right. apply Exists_exists in E as (a & I & <-). apply in_map. exact I.
Qed.
Ltac reached_tac := repeat (constructor; [first [assumption
  |solve [repeat first [apply Exists_cons_hd; assumption|apply Exists_cons_hd; apply stretches_refl|apply Exists_cons_tl]]]|]); constructor.

(** ** The corrections *)
Definition correction1 (sigma : num) : num := if neqb sigma #0%num then #0%num else (#0.5 * sigma)%num.
Definition correction3 (sigma : num) : num := if neqb sigma #0%num then #0%num else (#0.35 * sigma)%num.

Lemma corrections_arr s best : neqb s #0%num = true \/ best = true ->
  value (corrections (float s) best) = Ok (Some (Sc (correction1 s), Sc (correction3 s))).
Proof.
  intros H. unfold corrections, correction1, correction3.
  assert (E : value (holds (float s =? lit 0%R)%arr) = Ok (neqb s #0%num)).
  { unfold holds, cmp, lift2, value_of, lit, float. rewrite !bind_ret_l. cbn [bcast]. rewrite bind_ret_l. reflexivity. }
  apply (steps _ _ _ _ E). destruct (neqb s #0%num); [reflexivity|]. destruct H as [H|H]; [discriminate|]. rewrite H. reflexivity.
Qed.
Lemma corrections_num s best : neqb s #0%num = true \/ best = true ->
  value (OvertoppingTAW2002.corrections s best) = Ok (Some (correction1 s, correction3 s)).
Proof.
  intros H. unfold OvertoppingTAW2002.corrections, correction1, correction3. destruct (neqb s #0%num); [reflexivity|].
  destruct H as [H|H]; [discriminate|]. rewrite H. reflexivity.
Qed.

Section Discharge.
Variables (Hm0 Tmm10 r cot down up beta B db gamma_beta gamma_b f v ob bf : nums) (s : num) (best : bool).
Hypotheses (FC : filled cot) (SN : missing down \/ missing up) (OB : oblique_by beta gamma_beta ob) (BF : berm_by gamma_b B bf)
  (SG : neqb s #0%num = true \/ best = true).

Let args := [Hm0; Tmm10; r; ob; bf; f; cot].
Let vb := v_beta beta gamma_beta.
Let vk := v_ksi Hm0 Tmm10 cot.
Let va := v_adj Hm0 Tmm10 cot f bf.
Let c1 := fst (OvertoppingTAW2002.coefficients best).
Let c3 := snd (OvertoppingTAW2002.coefficients best).

(** *** The discharge *)
Definition q_breaking (i : nat) : num :=
  ((#0.067 / nsqrt (#1 / place i cot)) * vk i * place i bf
   * nexp (- #1 * (c1 + correction1 s) * (place i r / place i Hm0)
           * (#1 / (vk i * place i bf * va i * vb i * place i v))))%num.
Definition q_most (i : nat) : num :=
  OvertoppingTAW2002.q_diml_max_equation (place i Hm0) (place i r) (vb i) (va i) c3 (correction3 s) OvertoppingTAW2002.c2_default.

Let q_call := calculate_dimensionless_overtopping_discharge_q Hm0 Tmm10 r cot down up beta B db gamma_beta gamma_b f v (float s) best.

Lemma q_max_whole sh (gb k adj : nums) : common args sh ->
  stretches (shape gb) sh -> stretches (shape k) sh -> stretches (shape adj) sh ->
  den sh (value_of gb) vb -> den sh (value_of adj) va -> stretches (shape ob) (shape gb) ->
  Forall (fun s => stretches s (shape adj)) [shape bf; shape Hm0; shape Tmm10; shape cot; shape f] ->
  whole sh (q_diml_max_equation Hm0 r gb adj c3 (Sc (correction3 s)) OvertoppingTAW2002.c2_default) q_most.
Proof.
  intros C S1 S2 S3 D1 D3 U1 U3. pose proof (reached_common _ _ C) as R. destruct C as (F & _). unfold args in F. args_tac.
  unfold q_most, q_diml_max_equation, OvertoppingTAW2002.q_diml_max_equation, float.
  eapply (whole_intro _ _ _ [shape r; shape Hm0; shape adj; shape gb]).
  - autounfold with arrays. eapply den_ext; [den_tac|intros; reflexivity].
  - autounfold with arrays. eapply uses_incl; [uses_tac|incl_tac].
  - refine (reached_by _ _ _ R _ _); [reached_tac|unfold args; cbn [map]; reached_tac].
Qed.

Lemma q_eq_whole sh (gb k adj : nums) : common args sh -> stretches (shape v) sh ->
  stretches (shape gb) sh -> stretches (shape k) sh -> stretches (shape adj) sh ->
  den sh (value_of gb) vb -> den sh (value_of k) vk -> den sh (value_of adj) va -> stretches (shape ob) (shape gb) ->
  Forall (fun s => stretches s (shape adj)) [shape bf; shape Hm0; shape Tmm10; shape cot; shape f] ->
  whole sh ((#0.067 / asqrt (#1 / cot)) * k * bf
    * aexp (- #1 * (float c1 + (Sc (correction1 s) : nums)) * (r / Hm0) * (#1 / (k * bf * adj * gb * v))))%arr q_breaking.
Proof.
  intros C SV S1 S2 S3 D1 D2 D3 U1 U3. pose proof (reached_common _ _ C) as R. destruct C as (F & _). unfold args in F. args_tac.
  unfold q_breaking, float.
  eapply (whole_intro _ _ _ [shape cot; shape k; shape bf; shape r; shape Hm0; shape adj; shape gb; shape v]).
  - autounfold with arrays. eapply den_ext; [den_tac|intros; reflexivity].
  - autounfold with arrays. eapply uses_incl; [uses_tac|incl_tac].
  - refine (reached_by _ _ _ R _ _); [reached_tac|unfold args; cbn [map]; reached_tac].
Qed.

Lemma q_gives sh : common args sh -> stretches (shape v) sh ->
  gives sh q_call (fun i => nmin (q_breaking i) (q_most i)) (fun i => neqb (nmin (q_breaking i) (q_most i)) (q_most i)).
Proof.
  intros C SV. pose proof C as (F & _). unfold args in F.
  destruct (factors_ok Hm0 Tmm10 cot down up beta B db gamma_beta gamma_b f ob bf FC SN OB BF sh) as (gb & k & adj & EF & S1 & S2 & S3 & D1 & D2 & D3 & U1 & U2 & U3);
    [args_tac; reached_tac|].
  assert (CH : value (check_validity_range Hm0 Tmm10 beta cot down up f bf gb v) = Ok tt).
  { args_tac. assert (W : widens sh sh) by apply stretches_refl. unfold check_validity_range. autounfold with arrays. runs_tac. }
  destruct (q_eq_whole sh gb k adj) as (ea & Ea & Sa & Va); try assumption.
  destruct (q_max_whole sh gb k adj) as (eb & Eb & Sb & Vb); try assumption.
  destruct (gives_limited sh ea eb _ _ (check_validity_range Hm0 Tmm10 beta cot down up f bf gb v)
    (ex_intro _ ea (conj eq_refl (conj Sa Va))) (ex_intro _ eb (conj eq_refl (conj Sb Vb))) CH) as (z & m & E & Sr & Sm & V).
  exists z, m. split; [|auto]. unfold q_call, calculate_dimensionless_overtopping_discharge_q.
  rewrite (surjective_pairing (OvertoppingTAW2002.coefficients best)). fold c1 c3.
  apply (steps _ _ _ _ (corrections_arr s best SG)). apply (steps _ _ _ _ EF).
  cbn [fac_cot_alpha fac_gamma_b fac_gamma_beta fac_ksi fac_gamma_f].
  apply (steps _ _ (ea, eb)); [|exact E]. unfold q_diml_equations. apply (steps _ _ _ _ Ea). apply (steps _ _ _ _ Eb). reflexivity.
Qed.

Lemma q_stops : ~ (exists sh, common args sh /\ stretches (shape v) sh) -> value q_call = Err ValueError.
Proof.
  intros N. apply tame_raises.
  - unfold q_call, calculate_dimensionless_overtopping_discharge_q.
    rewrite (surjective_pairing (OvertoppingTAW2002.coefficients best)). fold c1 c3.
    apply tame_bind; [intros e E; rewrite (corrections_arr s best SG) in E; discriminate|]. intros cor E.
    rewrite (corrections_arr s best SG) in E. injection E as <-.
    apply tame_bind; [apply (tame_factors Hm0 Tmm10 cot down up beta B db gamma_beta gamma_b f ob bf); assumption|]. intros fac _. cbv zeta iota beta.
    unfold q_diml_equations, q_diml_max_equation, check_validity_range, stacked_min, float. autounfold with arrays. tame_tac.
  - intros (z & m) E. apply N. unfold q_call, calculate_dimensionless_overtopping_discharge_q in E.
    rewrite (surjective_pairing (OvertoppingTAW2002.coefficients best)) in E. fold c1 c3 in E.
    apply step in E as (cor & Ec & E). rewrite (corrections_arr s best SG) in Ec. injection Ec as <-.
    apply step in E as (fac & EF & E). cbv zeta iota beta in E. apply step in E as ((ea & eb) & Eq & E). cbn [fst snd] in E.
    pose proof (factors_inv Hm0 Tmm10 cot down up beta B db gamma_beta gamma_b f ob bf FC SN OB BF fac EF) as (K1 & K2 & K3 & K4 & K5).
    rewrite K1, K2 in *. apply step in E as (mn & Em & E). apply stacked_shapes in Em as ES. clear E.
    unfold q_diml_equations in Eq. apply step in Eq as (x & Ex & Eq). apply step in Eq as (y & Ey & Eq). injection Eq as -> ->.
    assert (U : forall k adj gb : nums, uses ((#0.067 / asqrt (#1 / cot)) * k * bf
        * aexp (- #1 * (float c1 + (Sc (correction1 s) : nums)) * (r / Hm0) * (#1 / (k * bf * adj * gb * v))))%arr
        [shape k; shape bf; shape r; shape adj; shape gb; shape v]).
    { intros. unfold float. autounfold with arrays. eapply uses_incl; [uses_tac|incl_tac]. }
    apply U in Ex. clear U.
    assert (C : compatible args) by (exists (shape ea); unfold args; args_tac; repeat (constructor; [eauto using stretches_trans|]); constructor).
    destruct C as (t & C). apply common_exists in C as (sh & C). exists sh. split; [exact C|].
    pose proof C as (F & _). unfold args in F.
    destruct (factors_ok Hm0 Tmm10 cot down up beta B db gamma_beta gamma_b f ob bf FC SN OB BF sh) as (gb & k & adj & EF' & S1 & S2 & S3 & D1 & D2 & D3 & U1 & U2 & U3);
      [args_tac; reached_tac|]. rewrite EF in EF'. injection EF' as ->. cbn [fac_cot_alpha fac_gamma_b fac_gamma_beta fac_ksi fac_gamma_f] in *.
    destruct (q_max_whole sh gb k adj) as (eb' & Eb & Sb & _); try assumption.
    assert (Q : eb' = eb) by (pose proof (eq_trans (eq_sym Eb) Ey) as Q; injection Q; auto).
    rewrite Q in Sb. rewrite <- Sb, <- ES. args_tac. assumption.
Qed.

Lemma q_at sh i : common args sh -> inside sh i ->
  value (OvertoppingTAW2002.calculate_dimensionless_overtopping_discharge_q (place i Hm0) (place i Tmm10) (place i r) (place i cot) (place i down) (place i up)
    (place i beta) (place i B) (place i db) (place i gamma_beta) (place i gamma_b) (place i f) (place i v) s best)
  = Ok (nmin (q_breaking i) (q_most i), neqb (nmin (q_breaking i) (q_most i)) (q_most i)).
Proof.
  intros (F & _) I. unfold args in F.
  unfold OvertoppingTAW2002.calculate_dimensionless_overtopping_discharge_q, q_breaking, q_most.
  rewrite (surjective_pairing (OvertoppingTAW2002.coefficients best)). fold c1 c3.
  rewrite value_bind, (corrections_num s best SG). rewrite value_bind.
  rewrite (scalar_factors Hm0 Tmm10 cot down up beta B db gamma_beta gamma_b f ob bf FC SN OB BF sh i) by (try assumption; args_tac; reached_tac).
  cbv zeta. unfold OvertoppingTAW2002.check_validity_range. mchecks. reflexivity.
Qed.
(** *** The crest freeboard *)
Variable g : num.
Definition Rc_breaking (i : nat) : num :=
  (nlog ((#1 / #0.067) * nsqrt (#1 / place i cot) * (#1 / place i bf) * (#1 / vk i) * place i r / nsqrt (g * npow (place i Hm0) #3))
   * (- #1 / (c1 + correction1 s)) * vk i * place i bf * va i * vb i * place i v)%num.
Definition Rc_most (i : nat) : num :=
  OvertoppingTAW2002.Rc_diml_max_equation (place i Hm0) (place i r) (vb i) (va i) c3 (correction3 s) OvertoppingTAW2002.c2_default CorePhysics.g_default.

Let Rc_call := calculate_dimensionless_crest_freeboard Hm0 Tmm10 r cot down up beta B db gamma_beta gamma_b f v (float s) (float g) best.

Lemma Rc_max_whole sh (gb k adj : nums) : common args sh ->
  stretches (shape gb) sh -> stretches (shape k) sh -> stretches (shape adj) sh ->
  den sh (value_of gb) vb -> den sh (value_of adj) va -> stretches (shape ob) (shape gb) ->
  Forall (fun s => stretches s (shape adj)) [shape bf; shape Hm0; shape Tmm10; shape cot; shape f] ->
  whole sh (Rc_diml_max_equation Hm0 r gb adj c3 (Sc (correction3 s)) OvertoppingTAW2002.c2_default g_default) Rc_most.
Proof.
  intros C S1 S2 S3 D1 D3 U1 U3. pose proof (reached_common _ _ C) as R. destruct C as (F & _). unfold args in F. args_tac.
  unfold Rc_most, Rc_diml_max_equation, OvertoppingTAW2002.Rc_diml_max_equation, float, g_default, CorePhysics.g_default.
  eapply (whole_intro _ _ _ [shape r; shape Hm0; shape adj; shape gb]).
  - autounfold with arrays. eapply den_ext; [den_tac|intros; reflexivity].
  - autounfold with arrays. eapply uses_incl; [uses_tac|incl_tac].
  - refine (reached_by _ _ _ R _ _); [reached_tac|unfold args; cbn [map]; reached_tac].
Qed.

Lemma Rc_eq_whole sh (gb k adj : nums) : common args sh -> stretches (shape v) sh ->
  stretches (shape gb) sh -> stretches (shape k) sh -> stretches (shape adj) sh ->
  den sh (value_of gb) vb -> den sh (value_of k) vk -> den sh (value_of adj) va -> stretches (shape ob) (shape gb) ->
  Forall (fun s => stretches s (shape adj)) [shape bf; shape Hm0; shape Tmm10; shape cot; shape f] ->
  whole sh (alog ((#1 / #0.067) * asqrt (#1 / cot) * (#1 / bf) * (#1 / k) * r / asqrt (float g * apow Hm0 #3))
    * (- #1 / (float c1 + (Sc (correction1 s) : nums))) * k * bf * adj * gb * v)%arr Rc_breaking.
Proof.
  intros C SV S1 S2 S3 D1 D2 D3 U1 U3. pose proof (reached_common _ _ C) as R. destruct C as (F & _). unfold args in F. args_tac.
  unfold Rc_breaking, float.
  eapply (whole_intro _ _ _ [shape cot; shape k; shape bf; shape r; shape Hm0; shape adj; shape gb; shape v]).
  - autounfold with arrays. eapply den_ext; [den_tac|intros; reflexivity].
  - autounfold with arrays. eapply uses_incl; [uses_tac|incl_tac].
  - refine (reached_by _ _ _ R _ _); [reached_tac|unfold args; cbn [map]; reached_tac].
Qed.

Lemma Rc_gives sh : common args sh -> stretches (shape v) sh ->
  gives sh Rc_call (fun i => nmin (Rc_breaking i) (Rc_most i)) (fun i => neqb (nmin (Rc_breaking i) (Rc_most i)) (Rc_most i)).
Proof.
  intros C SV. pose proof C as (F & _). unfold args in F.
  destruct (factors_ok Hm0 Tmm10 cot down up beta B db gamma_beta gamma_b f ob bf FC SN OB BF sh) as (gb & k & adj & EF & S1 & S2 & S3 & D1 & D2 & D3 & U1 & U2 & U3);
    [args_tac; reached_tac|].
  assert (CH : value (check_validity_range Hm0 Tmm10 beta cot down up f bf gb v) = Ok tt).
  { args_tac. assert (W : widens sh sh) by apply stretches_refl. unfold check_validity_range. autounfold with arrays. runs_tac. }
  destruct (Rc_eq_whole sh gb k adj) as (ea & Ea & Sa & Va); try assumption.
  destruct (Rc_max_whole sh gb k adj) as (eb & Eb & Sb & Vb); try assumption.
  destruct (gives_limited sh ea eb _ _ (check_validity_range Hm0 Tmm10 beta cot down up f bf gb v)
    (ex_intro _ ea (conj eq_refl (conj Sa Va))) (ex_intro _ eb (conj eq_refl (conj Sb Vb))) CH) as (z & m & E & Sr & Sm & V).
  exists z, m. split; [|auto]. unfold Rc_call, calculate_dimensionless_crest_freeboard.
  rewrite (surjective_pairing (OvertoppingTAW2002.coefficients best)). fold c1 c3.
  apply (steps _ _ _ _ (corrections_arr s best SG)). apply (steps _ _ _ _ EF).
  cbn [fac_cot_alpha fac_gamma_b fac_gamma_beta fac_ksi fac_gamma_f].
  apply (steps _ _ (ea, eb)); [|exact E]. unfold Rc_diml_equations. apply (steps _ _ _ _ Ea). apply (steps _ _ _ _ Eb). reflexivity.
Qed.

Lemma Rc_stops : ~ (exists sh, common args sh /\ stretches (shape v) sh) -> value Rc_call = Err ValueError.
Proof.
  intros N. apply tame_raises.
  - unfold Rc_call, calculate_dimensionless_crest_freeboard.
    rewrite (surjective_pairing (OvertoppingTAW2002.coefficients best)). fold c1 c3.
    apply tame_bind; [intros e E; rewrite (corrections_arr s best SG) in E; discriminate|]. intros cor E.
    rewrite (corrections_arr s best SG) in E. injection E as <-.
    apply tame_bind; [apply (tame_factors Hm0 Tmm10 cot down up beta B db gamma_beta gamma_b f ob bf); assumption|]. intros fac _. cbv zeta iota beta.
    unfold Rc_diml_equations, Rc_diml_max_equation, check_validity_range, stacked_min, float. autounfold with arrays. tame_tac.
  - intros (z & m) E. apply N. unfold Rc_call, calculate_dimensionless_crest_freeboard in E.
    rewrite (surjective_pairing (OvertoppingTAW2002.coefficients best)) in E. fold c1 c3 in E.
    apply step in E as (cor & Ec & E). rewrite (corrections_arr s best SG) in Ec. injection Ec as <-.
    apply step in E as (fac & EF & E). cbv zeta iota beta in E. apply step in E as ((ea & eb) & Eq & E). cbn [fst snd] in E.
    pose proof (factors_inv Hm0 Tmm10 cot down up beta B db gamma_beta gamma_b f ob bf FC SN OB BF fac EF) as (K1 & K2 & K3 & K4 & K5).
    rewrite K1, K2 in *. apply step in E as (mn & Em & E). apply stacked_shapes in Em as ES. clear E.
    unfold Rc_diml_equations in Eq. apply step in Eq as (x & Ex & Eq). apply step in Eq as (y & Ey & Eq). injection Eq as -> ->.
    assert (U : forall k adj gb : nums, uses (alog ((#1 / #0.067) * asqrt (#1 / cot) * (#1 / bf) * (#1 / k) * r / asqrt (float g * apow Hm0 #3))
    * (- #1 / (float c1 + (Sc (correction1 s) : nums))) * k * bf * adj * gb * v)%arr
        [shape k; shape bf; shape r; shape adj; shape gb; shape v]).
    { intros. unfold float. autounfold with arrays. eapply uses_incl; [uses_tac|incl_tac]. }
    apply U in Ex. clear U.
    assert (C : compatible args) by (exists (shape ea); unfold args; args_tac; repeat (constructor; [eauto using stretches_trans|]); constructor).
    destruct C as (t & C). apply common_exists in C as (sh & C). exists sh. split; [exact C|].
    pose proof C as (F & _). unfold args in F.
    destruct (factors_ok Hm0 Tmm10 cot down up beta B db gamma_beta gamma_b f ob bf FC SN OB BF sh) as (gb & k & adj & EF' & S1 & S2 & S3 & D1 & D2 & D3 & U1 & U2 & U3);
      [args_tac; reached_tac|]. rewrite EF in EF'. injection EF' as ->. cbn [fac_cot_alpha fac_gamma_b fac_gamma_beta fac_ksi fac_gamma_f] in *.
    destruct (Rc_max_whole sh gb k adj) as (eb' & Eb & Sb & _); try assumption.
    assert (Q : eb' = eb) by (pose proof (eq_trans (eq_sym Eb) Ey) as Q; injection Q; auto).
    rewrite Q in Sb. rewrite <- Sb, <- ES. args_tac. assumption.
Qed.

Lemma Rc_at sh i : common args sh -> inside sh i ->
  value (OvertoppingTAW2002.calculate_dimensionless_crest_freeboard (place i Hm0) (place i Tmm10) (place i r) (place i cot) (place i down) (place i up)
    (place i beta) (place i B) (place i db) (place i gamma_beta) (place i gamma_b) (place i f) (place i v) s g best)
  = Ok (nmin (Rc_breaking i) (Rc_most i), neqb (nmin (Rc_breaking i) (Rc_most i)) (Rc_most i)).
Proof.
  intros (F & _) I. unfold args in F.
  unfold OvertoppingTAW2002.calculate_dimensionless_crest_freeboard, Rc_breaking, Rc_most.
  rewrite (surjective_pairing (OvertoppingTAW2002.coefficients best)). fold c1 c3.
  rewrite value_bind, (corrections_num s best SG). rewrite value_bind.
  rewrite (scalar_factors Hm0 Tmm10 cot down up beta B db gamma_beta gamma_b f ob bf FC SN OB BF sh i) by (try assumption; args_tac; reached_tac).
  cbv zeta. unfold OvertoppingTAW2002.check_validity_range. mchecks. reflexivity.
Qed.
End Discharge.

(** ** Calls that stop *)

(** The run-up with a given influence of the berm and a single slope raises nothing
    but ValueError. *)
Lemma tame_single n Hm0 Tmm10 gb f cot c1 c2 c3 c4 best :
  tame (ArrRunupTAW2002.runup_upto (S n) Hm0 Tmm10 gb (lit 1%R) f cot c1 c2 c3 c4 best).
Proof.
  unfold ArrRunupTAW2002.runup_upto. cbn [ArrRunupTAW2002.calculate_wave_runup_height_z2p_upto].
  apply tame_bind; [|intros; tame_tac]. unfold ArrRunupTAW2002.dimensionless_body.
  destruct (RunupTAW2002.best_fit_coefficients best c1 c2 c3 c4) as [[[d1 d2] d3] d4].
  apply tame_bind; [apply tame_check_calculate|]. intros cb E.
  assert (cb = false) as ->.
  { unfold ArrRunupTAW2002.check_calculate_gamma_beta in E. change (all_nan anan) with true in E. cbn [andb] in E.
    destruct (all_nan gb); [discriminate|]. injection E; auto. }
  apply tame_bind; [tame_tac|]. intros gb' _.
  destruct (not_composite cot anan anan) as [K|K]; [left; repeat constructor|rewrite K..]; [|apply tame_raise].
  rewrite bind_ret_l. apply tame_bind; [tame_tac|]. intros cot' _.
  apply tame_bind; [autounfold with arrays; tame_tac|]. intros k _.
  rewrite (one_given (lit 1%R) #1%num eq_refl), bind_ret_l. cbn [isnan].
  apply tame_bind; [tame_tac|]. intros b _. apply tame_runup_core.
Qed.

Lemma single_uses n (Hm0 Tmm10 gb f cot : nums) c1 c2 c3 c4 best z m :
  value (ArrRunupTAW2002.runup_upto (S n) Hm0 Tmm10 gb (lit 1%R) f cot c1 c2 c3 c4 best) = Ok (z, m) ->
  Exists is_array [Hm0; Tmm10; gb; f; cot] -> is_array z.
Proof.
  unfold ArrRunupTAW2002.runup_upto. cbn [ArrRunupTAW2002.calculate_wave_runup_height_z2p_upto]. intros E X.
  apply step in E as ((d & m') & Ed & E). cbn [fst snd] in E. apply step in E as (z' & Ez & E). injection E as -> ->.
  assert (U : uses (d * Hm0)%arr [shape d; shape Hm0]) by (eapply uses_incl; [uses_tac|incl_tac]).
  apply U in Ez. clear U.
  unfold ArrRunupTAW2002.dimensionless_body in Ed.
  destruct (RunupTAW2002.best_fit_coefficients best c1 c2 c3 c4) as [[[d1 d2] d3] d4].
  apply step in Ed as (cb & Ec & Ed).
  assert (cb = false) as ->.
  { unfold ArrRunupTAW2002.check_calculate_gamma_beta in Ec. change (all_nan anan) with true in Ec. cbn [andb] in Ec.
    destruct (all_nan gb); [discriminate|]. injection Ec; auto. }
  apply step in Ed as (gb' & Eg & Ed). injection Eg as <-.
  destruct (not_composite cot anan anan) as [K|K]; [left; repeat constructor|rewrite K in Ed..]; [|discriminate Ed].
  rewrite bind_ret_l in Ed. apply step in Ed as (cot' & Et & Ed). injection Et as <-.
  apply step in Ed as (k & Ek & Ed).
  rewrite (one_given (lit 1%R) #1%num eq_refl), bind_ret_l in Ed. cbn [isnan] in Ed.
  apply step in Ed as (b & Eb & Ed). injection Eb as <-.
  assert (S : shape d <> None \/ shape d = None) by (destruct (shape d); [left|right]; congruence).
  assert (Z : forall s, stretches s (shape z) -> s <> None -> is_array z).
  { intros s [Q|[(Q & P)|Q]] M; [congruence|exact P|unfold is_array; congruence]. }
  destruct S as [S|S]; [args_tac; eauto|]. exfalso.
  unfold ArrRunupTAW2002.dimensionless_runup in Ed. apply step in Ed as (adj & Ea & Ed). apply step in Ed as (ea & Eea & Ed).
  apply step in Ed as (eb & Eeb & Ed). apply step in Ed as (mn & Em & Ed). apply step in Ed as (mx & Emx & Ed).
  apply step in Ed as (tt' & Et & Ed). injection Ed as -> ->.
  assert (U : uses (stacked_min ea eb) [shape ea]).
  { intros q Eq. unfold stacked_min, stacked in Eq. apply step in Eq as (a' & Ea' & Eq). injection Ea' as <-.
    apply step in Eq as (b' & Eb' & Eq). injection Eb' as <-. destruct (shape_eqb (shape ea) (shape eb)); [|discriminate].
    apply bcast_shape in Eq as (Q & _). constructor; [exact Q|constructor]. }
  apply U in Em. clear U.
  assert (U : uses (float d1 * lit 1%R * adj * gb * k)%arr [shape adj; shape gb; shape k]).
  { unfold float. eapply uses_incl; [uses_tac|incl_tac]. }
  apply U in Eea. clear U.
  assert (U : uses (ArrRunupTAW2002.calculate_adjusted_influence_roughness_gamma_f f (lit 1%R) k) [shape f; shape k]).
  { autounfold with arrays. eapply uses_incl; [uses_tac|incl_tac]. }
  apply U in Ea. clear U.
  assert (U : uses (calculate_Iribarren_number_ksi Hm0 Tmm10 cot) [shape Hm0; shape Tmm10; shape cot]).
  { autounfold with arrays. eapply uses_incl; [uses_tac|incl_tac]. }
  apply U in Ek. clear U.
  assert (N : forall s, stretches s None -> s = None) by (intros s [Q|[(_ & Q)|Q]]; congruence).
  args_tac. rewrite S in *. repeat match goal with H : stretches _ None |- _ => apply N in H end.
  assert (Z1 : shape ea = None) by assumption. rewrite Z1 in *.
  repeat match goal with H : stretches _ None |- _ => apply N in H end.
  assert (Z2 : shape adj = None) by assumption. assert (Z3 : shape k = None) by assumption. rewrite Z2, Z3 in *.
  repeat match goal with H : stretches _ None |- _ => apply N in H end.
  unfold is_array in X. rewrite !Exists_cons in X. rewrite Exists_nil in X. intuition congruence.
Qed.

Section Stopping.
Variables (Hm0 Tmm10 cot down up beta B db gamma_beta gamma_b f : nums).
Let factors := influence_factors Hm0 Tmm10 cot down up beta B db gamma_beta gamma_b f.

Lemma factors_several n : missing down \/ missing up -> shape gamma_b = Some n -> n <> 1 -> stops factors.
Proof.
  intros SN E N. unfold factors, influence_factors.
  apply stops_then; [apply tame_check_calculate|]. intros cb _.
  apply stops_then; [destruct cb; autounfold with arrays; unfold calculate_influence_oblique_waves_gamma_beta; autounfold with arrays; tame_tac|]. intros gb _.
  destruct (not_composite cot down up SN) as [K|K]; rewrite K; [|reflexivity]. rewrite bind_ret_l.
  apply stops_then; [tame_tac|]. intros c _. apply stops_then; [autounfold with arrays; tame_tac|]. intros k _.
  apply stops_first. exact (several_given gamma_b n E N).
Qed.

Lemma factors_composite : filled down -> filled up -> all_finite Hm0 -> Exists is_array [Hm0; db; B; down; up] -> stops factors.
Proof.
  intros FD FU FH X. unfold factors, influence_factors.
  apply stops_then; [apply tame_check_calculate|]. intros cb _.
  apply stops_then; [destruct cb; autounfold with arrays; unfold calculate_influence_oblique_waves_gamma_beta; autounfold with arrays; tame_tac|]. intros gb _.
  rewrite (composite_slope _ _ _ FD FU), bind_ret_l. apply stops_first, stops_first.
  apply search_arrays; auto. lra.
Qed.

Lemma positive_place (a : nums) sh i : all_positive a -> stretches (shape a) sh -> inside sh i -> exists r, place i a = Fin r /\ (0 < r)%R.
Proof. intros F S I. apply (entries_place a sh (fun x => exists r, x = Fin r /\ (0 < r)%R)); auto. Qed.

Lemma factors_berm ob x : filled cot -> missing down \/ missing up -> oblique_by beta gamma_beta ob -> one_number gamma_b x -> isnan x = true ->
  all_positive B -> all_positive Hm0 -> all_positive cot -> Exists is_array [Hm0; Tmm10; ob; f; cot; B; db] -> stops factors.
Proof.
  intros FC SN OB O X PB PH PC A. unfold factors, influence_factors.
  apply stops_then; [apply tame_check_calculate|]. intros cb Ec.
  apply stops_then; [destruct cb; autounfold with arrays; unfold calculate_influence_oblique_waves_gamma_beta; autounfold with arrays; tame_tac|]. intros gb Eg.
  assert (G : stretches (shape ob) (shape gb)).
  { destruct OB as [(F & ->)|(N & F & ->)].
    - rewrite (calculate_beta_given _ _ F) in Ec. injection Ec as <-. injection Eg as <-. apply stretches_refl.
    - rewrite (calculate_beta_missing _ _ N F) in Ec. injection Ec as <-.
      assert (U : uses (calculate_influence_oblique_waves_gamma_beta beta OvertoppingTAW2002.c_gamma_beta_default OvertoppingTAW2002.max_angle_default) [shape beta]).
      { unfold calculate_influence_oblique_waves_gamma_beta, float. autounfold with arrays. eapply uses_incl; [uses_tac|incl_tac]. }
      apply U in Eg. args_tac. assumption. }
  rewrite (single_slope _ _ _ FC SN), bind_ret_l. unfold value_of at 1. rewrite bind_ret_l.
  apply stops_then; [autounfold with arrays; tame_tac|]. intros k Ek.
  rewrite (one_given _ _ O), X, bind_ret_l. apply stops_first.
  apply stops_then; [apply tame_berm_length|]. intros L EL.
  unfold ArrRunupTAW2002.calculate_berm_length in EL. rewrite (single_slope _ _ _ FC SN), bind_ret_l in EL. cbv zeta iota in EL.
  unfold ArrRunupTAW2002.iteration_procedure_gamma_b. change RunupTAW2002.depth_limit with (S 299). apply berm_search_arrays.
  - apply tame_single.
  - intros w W. unfold all_positive in PB. unfold one_number in W. rewrite W in PB. inversion PB; subst. destruct H1 as (r & -> & P).
    cbn. apply Reqb_false. lra.
  - intros l Q. assert (U : uses (lit 1%R * Hm0 * cot + B + lit 1%R * Hm0 * cot)%arr [shape Hm0; shape cot; shape B]) by (eapply uses_incl; [uses_tac|incl_tac]).
    pose proof (U _ EL) as F. clear U. args_tac.
    assert (D : den (shape L) (lit 1%R * Hm0 * cot + B + lit 1%R * Hm0 * cot)%arr
      (fun i => (#1 * place i Hm0 * place i cot + place i B + #1 * place i Hm0 * place i cot)%num)) by (eapply den_ext; [den_tac|intros; reflexivity]).
    destruct D as (L' & EL' & _ & V). pose proof (eq_trans (eq_sym EL) EL') as J. injection J as <-.
    assert (I : inside (shape L) 0) by (destruct L as [y|[|y l']]; cbn; try exact Logic.I; try discriminate Q; lia).
    specialize (V 0 I). assert (P : place 0 L = l) by (destruct L as [y|[|y [|? ?]]]; try discriminate Q; injection Q as ->; reflexivity).
    unfold place at 1 in P. rewrite V in P. rewrite <- P.
    destruct (positive_place Hm0 (shape L) 0) as (h & -> & P1); auto. destruct (positive_place cot (shape L) 0) as (c & -> & P2); auto.
    destruct (positive_place B (shape L) 0) as (w & -> & P3); auto.
    cbn. apply Reqb_false. assert (0 < h * c)%R by (apply Rmult_lt_0_compat; auto). nra.
  - intros z m Ez.
    assert (Y : Exists is_array [Hm0; Tmm10; gb; f; cot] \/ Exists is_array [B; db]).
    { rewrite !Exists_cons in *. rewrite !Exists_nil in *. unfold is_array in *.
      assert (shape ob <> None -> shape gb <> None) by (intros M Q; rewrite Q in G; destruct G as [J|[(_ & J)|J]]; congruence). intuition. }
    destruct Y as [Y|Y].
    + pose proof (single_uses _ _ _ _ _ _ _ _ _ _ _ _ _ Ez Y). rewrite !Exists_cons. tauto.
    + rewrite !Exists_cons in *. rewrite !Exists_nil in *. tauto.
Qed.
End Stopping.
