From Coq Require Import Reals List Bool Arith Lia Lra.
From Verif.Lib Require Import Num Monad Arr ArrFlags ArrLoop RTac NTac.
From Verif.Spec Require Import Arrays ArrayFlags ArrayStacks ArrayWarnings ArrayCalls ArrayWide ArrayReports.
From Verif.Proofs Require Import Core CheckTac Arrays ArrayLoops ArrayFlags ArrayWarnings ArrayCalls ArrayTaw ArrayTawDischarge ArrayStacks ArrayEurotop ArrayReports.
From Verif.Model Require CorePhysics RunupTAW2002 RunupEurotop2018 OvertoppingEurotop2018 OvertoppingEurotop2007 VanGent2025
  ArrRunupTAW2002 ArrRunupEurotop2018 ArrOvertoppingTAW2002 ArrOvertoppingEurotop2018 ArrOvertoppingEurotop2007 ArrVanGent2025.
From Verif.Model Require Import CoreUtility ArrCore.
From Verif.Props Require ArraysRunupEurotop ArraysVanGent2025.
Import ListNotations.
Open Scope nat_scope.

Lemma warns_at {A B} (m : M A) a (k : A -> M B) : warns m = [] -> value m = Ok a -> warns (x <- m ;; k x) = warns (k a).
Proof. intros Q E. rewrite warns_bind, Q, E. reflexivity. Qed.
Lemma quiet_if {A} (b : bool) (m n : M A) : quiet m -> quiet n -> quiet (if b then m else n).
Proof. destruct b; auto. Qed.
Lemma quiet_all_beta beta gamma_beta : quiet (ArrRunupTAW2002.check_calculate_gamma_beta beta gamma_beta).
Proof. unfold ArrRunupTAW2002.check_calculate_gamma_beta. repeat (apply quiet_if); reflexivity. Qed.
Lemma quiet_all_beta_at beta gamma_beta : quiet (RunupTAW2002.check_calculate_gamma_beta beta gamma_beta).
Proof. unfold RunupTAW2002.check_calculate_gamma_beta. repeat (apply quiet_if); reflexivity. Qed.
Lemma quiet_composite cot down up : quiet (ArrRunupTAW2002.check_composite_slope cot down up).
Proof. unfold ArrRunupTAW2002.check_composite_slope. repeat (apply quiet_if); reflexivity. Qed.

(** ** EurOtop (2007) *)
Section Silent2007.
Variables (Hm0 Tmm10 r beta gamma_beta f cot : nums) (c2 c3 : num) (best : bool).
Lemma quiet2007 : quiet (ArrOvertoppingEurotop2007.influence_factors Hm0 Tmm10 beta gamma_beta f cot).
Proof.
  unfold ArrOvertoppingEurotop2007.influence_factors. apply quiet_bind; [apply quiet_all_beta|]. intros b.
  apply quiet_bind; [apply quiet_if; [apply quiet_oblique|reflexivity]|]. intros gb. autounfold with arrays. quiet_tac.
Qed.
Lemma q2007_silent : silent (ArrOvertoppingEurotop2007.calculate_dimensionless_overtopping_discharge_q_rubble_mound Hm0 Tmm10 r beta gamma_beta f cot c2 c3 best).
Proof.
  unfold ArrOvertoppingEurotop2007.calculate_dimensionless_overtopping_discharge_q_rubble_mound. destruct (OvertoppingEurotop2007.check_best_fit c2 c3 best).
  apply quiet_bind; [apply quiet2007|]. intros. unfold ArrOvertoppingTAW2002.q_diml_max_equation. autounfold with arrays. quiet_tac.
Qed.
Lemma Rc2007_silent : silent (ArrOvertoppingEurotop2007.calculate_dimensionless_crest_freeboard_rubble_mound Hm0 Tmm10 r beta gamma_beta f cot c2 c3 best).
Proof.
  unfold ArrOvertoppingEurotop2007.calculate_dimensionless_crest_freeboard_rubble_mound. destruct (OvertoppingEurotop2007.check_best_fit c2 c3 best).
  apply quiet_bind; [apply quiet2007|]. intros. unfold ArrOvertoppingTAW2002.Rc_diml_max_equation. autounfold with arrays. quiet_tac.
Qed.
End Silent2007.

(** ** EurOtop (2018) *)
Lemma quiet_oblique2018 beta f crit cs cr m : quiet (ArrRunupEurotop2018.calculate_influence_oblique_waves_gamma_beta beta f crit cs cr m).
Proof.
  unfold ArrRunupEurotop2018.calculate_influence_oblique_waves_gamma_beta. apply quiet_bind; [apply quiet_holds; quiet_tac|].
  intros b. apply quiet_oblique.
Qed.
Lemma quiet_beta2018 beta gamma_beta f : quiet (ArrOvertoppingEurotop2018.factor_beta beta gamma_beta f).
Proof. unfold ArrOvertoppingEurotop2018.factor_beta. apply quiet_bind; [apply quiet_all_beta|]. intros b. apply quiet_if; [apply quiet_oblique2018|reflexivity]. Qed.
Lemma quiet_beta2018_at beta gamma_beta f : quiet (OvertoppingEurotop2018.factor_beta beta gamma_beta f).
Proof. unfold OvertoppingEurotop2018.factor_beta. apply quiet_bind; [apply quiet_all_beta_at|]. intros b. reflexivity. Qed.
Lemma quiet_slope Hm0 Tmm10 cot down up B db f gb best : filled cot -> missing down \/ missing up ->
  quiet (ArrOvertoppingEurotop2018.slope Hm0 Tmm10 cot down up B db f gb best).
Proof. intros F N. unfold ArrOvertoppingEurotop2018.slope. rewrite (single_slope _ _ _ F N). reflexivity. Qed.
Lemma quiet_slope_at sh i Hm0 Tmm10 cot down up B db f gb best : filled cot -> missing down \/ missing up -> stretches (shape cot) sh -> inside sh i ->
  quiet (OvertoppingEurotop2018.slope Hm0 Tmm10 (place i cot) (place i down) (place i up) B db f gb best).
Proof. intros F N S I. unfold OvertoppingEurotop2018.slope. rewrite (single_slope_at cot down up sh i) by assumption. reflexivity. Qed.

Section RubbleMound.
Variables (Hm0 Tmm10 r beta gamma_beta f B db cot down up ob : nums) (c2 c3 : num) (best : bool) (g : num).
Hypotheses (FC : filled cot) (SN : missing down \/ missing up) (OB : oblique_with beta gamma_beta f ob).

Lemma told_rubble sh : sh <> Some 0 -> stretches (shape cot) sh ->
  told sh (ArrOvertoppingEurotop2018.check_validity_range_rubble_mound cot) (fun i => OvertoppingEurotop2018.check_validity_range_rubble_mound (place i cot)).
Proof.
  intros NE S. assert (A : all_or_none cot) by (left; exact FC).
  unfold ArrOvertoppingEurotop2018.check_validity_range_rubble_mound, OvertoppingEurotop2018.check_validity_range_rubble_mound. told_tac.
Qed.

Lemma q_rm_warned : warned [Hm0; Tmm10; r; ob; f; cot] [] []
  (ArrOvertoppingEurotop2018.calculate_dimensionless_overtopping_discharge_q_rubble_mound Hm0 Tmm10 r beta gamma_beta f B db cot down up c2 c3 best)
  (fun at_ => OvertoppingEurotop2018.calculate_dimensionless_overtopping_discharge_q_rubble_mound (at_ Hm0) (at_ Tmm10) (at_ r) (at_ beta)
    (at_ gamma_beta) (at_ f) (at_ B) (at_ db) (at_ cot) (at_ down) (at_ up) c2 c3 best).
Proof.
  intros sh C _ NE _. destruct (beta2018 beta gamma_beta f ob OB) as (gb & EB & SB & V).
  destruct (q_rm2018 Hm0 Tmm10 r beta gamma_beta f B db cot down up ob c2 c3 best FC SN OB) as (P & _). destruct (P sh C) as (z & E & _). clear P.
  pose proof C as (FA & _).
  apply (warns_ext sh _ (ArrOvertoppingEurotop2018.check_validity_range_rubble_mound cot) _ (fun i => OvertoppingEurotop2018.check_validity_range_rubble_mound (place i cot))).
  - unfold ArrOvertoppingEurotop2018.calculate_dimensionless_overtopping_discharge_q_rubble_mound in *.
    destruct (OvertoppingEurotop2018.check_best_fit NaN c2 c3 NaN best) as [[[d1 d2] d3] d4].
    rewrite (warns_next _ _ _ (quiet_beta2018 _ _ _) EB). rewrite value_bind, EB in E.
    pose proof (slope_single Hm0 Tmm10 cot down up B db f gb best FC SN) as ES.
    rewrite (warns_next _ _ _ (quiet_slope _ _ _ _ _ _ _ _ _ _ FC SN) ES). rewrite value_bind, ES in E.
    apply through in E as (k & _ & E & ->); [|autounfold with arrays; quiet_tac]. apply through in E as (adj & _ & E & ->); [|autounfold with arrays; quiet_tac].
    apply through in E as (q & _ & E & ->); [|unfold ArrOvertoppingEurotop2018.q_diml_max_equation; autounfold with arrays; quiet_tac].
    apply warns_tail. reflexivity.
  - intros i I. args_tac. unfold OvertoppingEurotop2018.calculate_dimensionless_overtopping_discharge_q_rubble_mound.
    destruct (OvertoppingEurotop2018.check_best_fit NaN c2 c3 NaN best) as [[[d1 d2] d3] d4].
    rewrite (warns_at _ (place i gb)); [|apply quiet_beta2018_at|apply (V sh i); assumption].
    rewrite (warns_at _ (place i cot)); [|apply (quiet_slope_at sh); assumption|apply (slope_single_at sh); assumption].
    cbv zeta. apply warns_tail. reflexivity.
  - apply told_rubble; [exact NE|]. args_tac. assumption.
Qed.
Lemma Rc_rm_warned : warned [Hm0; Tmm10; r; ob; f; cot] [] []
  (ArrOvertoppingEurotop2018.calculate_dimensionless_crest_freeboard_rubble_mound Hm0 Tmm10 r beta gamma_beta f B db cot down up c2 c3 best (float g))
  (fun at_ => OvertoppingEurotop2018.calculate_dimensionless_crest_freeboard_rubble_mound (at_ Hm0) (at_ Tmm10) (at_ r) (at_ beta)
    (at_ gamma_beta) (at_ f) (at_ B) (at_ db) (at_ cot) (at_ down) (at_ up) c2 c3 best g).
Proof.
  intros sh C _ NE _. destruct (beta2018 beta gamma_beta f ob OB) as (gb & EB & SB & V).
  destruct (Rc_rm2018 Hm0 Tmm10 r beta gamma_beta f B db cot down up ob c2 c3 best g FC SN OB) as (P & _). destruct (P sh C) as (z & E & _). clear P.
  pose proof C as (FA & _).
  apply (warns_ext sh _ (ArrOvertoppingEurotop2018.check_validity_range_rubble_mound cot) _ (fun i => OvertoppingEurotop2018.check_validity_range_rubble_mound (place i cot))).
  - unfold ArrOvertoppingEurotop2018.calculate_dimensionless_crest_freeboard_rubble_mound in *.
    destruct (OvertoppingEurotop2018.check_best_fit NaN c2 c3 NaN best) as [[[d1 d2] d3] d4].
    rewrite (warns_next _ _ _ (quiet_beta2018 _ _ _) EB). rewrite value_bind, EB in E.
    pose proof (slope_single Hm0 Tmm10 cot down up B db f gb false FC SN) as ES.
    rewrite (warns_next _ _ _ (quiet_slope _ _ _ _ _ _ _ _ _ _ FC SN) ES). rewrite value_bind, ES in E.
    apply through in E as (k & _ & E & ->); [|autounfold with arrays; quiet_tac]. apply through in E as (adj & _ & E & ->); [|autounfold with arrays; quiet_tac].
    apply through in E as (q & _ & E & ->); [|unfold ArrOvertoppingEurotop2018.Rc_diml_max_equation; autounfold with arrays; quiet_tac].
    apply warns_tail. reflexivity.
  - intros i I. args_tac. unfold OvertoppingEurotop2018.calculate_dimensionless_crest_freeboard_rubble_mound.
    destruct (OvertoppingEurotop2018.check_best_fit NaN c2 c3 NaN best) as [[[d1 d2] d3] d4].
    rewrite (warns_at _ (place i gb)); [|apply quiet_beta2018_at|apply (V sh i); assumption].
    rewrite (warns_at _ (place i cot)); [|apply (quiet_slope_at sh); assumption|apply (slope_single_at sh); assumption].
    cbv zeta. apply warns_tail. reflexivity.
  - apply told_rubble; [exact NE|]. args_tac. assumption.
Qed.
End RubbleMound.

(** Without a berm on a single slope the other functions check nothing. *)
Section Silent2018.
Variables (Hm0 Tmm10 r beta gamma_beta gamma_b f v star B db cot down up : nums) (c1 c2 c3 c4 : num) (best : bool) (g : num).
Hypotheses (FC : filled cot) (SN : missing down \/ missing up) (NB : one_number B (Fin 0)).

Lemma quiet_berm (L gb : nums) e1 e2 e3 e4 b : quiet (ArrRunupEurotop2018.iteration_procedure_gamma_b Hm0 Tmm10 cot B L db gb e1 e2 e3 e4 b f).
Proof.
  unfold ArrRunupEurotop2018.iteration_procedure_gamma_b.
  destruct (RunupEurotop2018.check_best_fit e1 e2 e3 e4 b) as [[[d1 d2] d3] d4].
  unfold ArrRunupTAW2002.iteration_procedure_gamma_b, ArrRunupTAW2002.iteration_procedure_gamma_b_body.
  assert (E : value (holds (B =? lit 0%R)%arr) = Ok true).
  { destruct B as [y|[|y [|? ?]]]; try discriminate NB; injection NB as ->;
      unfold holds, cmp, lift2, value_of, lit; rewrite !bind_ret_l; cbn [bcast amap map]; rewrite bind_ret_l; cbn; rewrite (Reqb_true _ _ eq_refl); reflexivity. }
  assert (Q : quiet (holds (B =? lit 0%R)%arr)) by (apply quiet_holds; quiet_tac).
  unfold quiet. rewrite (warns_next _ true); [reflexivity|unfold quiet; rewrite (warns_next _ true); [reflexivity|exact Q|exact E]|rewrite value_bind, E; reflexivity].
Qed.
Lemma quiet_berm_length c : filled c -> quiet (ArrRunupTAW2002.calculate_berm_length Hm0 B c down up).
Proof.
  intros F. unfold ArrRunupTAW2002.calculate_berm_length. apply quiet_bind; [apply quiet_composite|]. intros b. cbv zeta. destruct b; quiet_tac.
Qed.
Lemma quiet_rough (gb : nums) : quiet (ArrOvertoppingEurotop2018.berm_and_roughness Hm0 Tmm10 cot down up B db f gb).
Proof.
  unfold ArrOvertoppingEurotop2018.berm_and_roughness. apply quiet_bind; [autounfold with arrays; quiet_tac|]. intros k.
  apply quiet_bind; [apply quiet_berm_length, FC|]. intros L. apply quiet_bind; [apply quiet_berm|]. intros b. apply quiet_bind; [autounfold with arrays; quiet_tac|]. reflexivity.
Qed.
Lemma q2018_silent : silent (ArrOvertoppingEurotop2018.calculate_dimensionless_overtopping_discharge_q Hm0 Tmm10 r beta gamma_beta gamma_b f v star B db cot down up c1 c2 c3 c4 best).
Proof.
  unfold ArrOvertoppingEurotop2018.calculate_dimensionless_overtopping_discharge_q. destruct (OvertoppingEurotop2018.check_best_fit c1 c2 c3 c4 best) as [[[d1 d2] d3] d4].
  apply quiet_bind; [apply quiet_beta2018|]. intros gb. pose proof (slope_single Hm0 Tmm10 cot down up B db f gb best FC SN) as ES.
  unfold quiet. rewrite (warns_next _ _ _ (quiet_slope _ _ _ _ _ _ _ _ _ _ FC SN) ES). apply quiet_bind; [apply quiet_rough|]. intros k.
  apply quiet_bind; [autounfold with arrays; quiet_tac|]. intros x. apply quiet_bind; [unfold ArrOvertoppingEurotop2018.q_diml_max_equation; autounfold with arrays; quiet_tac|]. intros y.
  apply quiet_bind; [apply quiet_stacked_min|]. intros z. apply quiet_bind; [apply quiet_flag|]. reflexivity.
Qed.
Lemma Rc2018_silent : silent (ArrOvertoppingEurotop2018.calculate_dimensionless_crest_freeboard Hm0 Tmm10 r beta gamma_beta gamma_b f v star B db cot down up c1 c2 c3 c4 best (float g)).
Proof.
  unfold ArrOvertoppingEurotop2018.calculate_dimensionless_crest_freeboard. destruct (OvertoppingEurotop2018.check_best_fit c1 c2 c3 c4 best) as [[[d1 d2] d3] d4].
  apply quiet_bind; [apply quiet_beta2018|]. intros gb. pose proof (slope_single Hm0 Tmm10 cot down up B db f gb false FC SN) as ES.
  unfold quiet. rewrite (warns_next _ _ _ (quiet_slope _ _ _ _ _ _ _ _ _ _ FC SN) ES). apply quiet_bind; [apply quiet_rough|]. intros k.
  apply quiet_bind; [autounfold with arrays; quiet_tac|]. intros x. apply quiet_bind; [unfold ArrOvertoppingEurotop2018.Rc_diml_max_equation; autounfold with arrays; quiet_tac|]. intros y.
  apply quiet_bind; [apply quiet_stacked_min|]. intros z. apply quiet_bind; [apply quiet_flag|]. reflexivity.
Qed.
End Silent2018.

(** ** Run-up of EurOtop (2018) *)
Lemma runup2018_warned Hm0 Tmm10 beta gamma_beta gamma_b gamma_f B_berm db cot down up c1 c2 c3 c4 best x y :
  filled beta -> one_number gamma_f y -> filled cot -> missing down \/ missing up -> one_number gamma_b x -> isnan x = false ->
  warned [Hm0; Tmm10; beta; gamma_b; gamma_f; cot] [] [Hm0; Tmm10; gamma_f]
    (ArrRunupEurotop2018.calculate_dimensionless_wave_runup_height_z2p Hm0 Tmm10 beta gamma_beta gamma_b gamma_f B_berm db cot down up c1 c2 c3 c4 best)
    (fun at_ => RunupEurotop2018.calculate_dimensionless_wave_runup_height_z2p (at_ Hm0) (at_ Tmm10) (at_ beta) (at_ gamma_beta) (at_ gamma_b)
       (at_ gamma_f) (at_ B_berm) (at_ db) (at_ cot) (at_ down) (at_ up) c1 c2 c3 c4 best).
Proof.
  intros FB OF FC SN O X.
  unfold ArrRunupEurotop2018.calculate_dimensionless_wave_runup_height_z2p, RunupEurotop2018.calculate_dimensionless_wave_runup_height_z2p.
  destruct (RunupEurotop2018.check_best_fit c1 c2 c3 c4 best) as [[[d1 d2] d3] d4].
  destruct (oblique2018_value beta gamma_f y RunupEurotop2018.gamma_f_crit_default RunupEurotop2018.c_gamma_beta_smooth_default
    RunupEurotop2018.c_gamma_beta_rough_default RunupEurotop2018.max_angle_default OF) as (gb & E & S & V).
  pose proof (ArraysRunupEurotop.oblique_filled beta gb gamma_f y S FB OF V) as FG.
  intros sh C F NE A w.
  rewrite (warns_next _ _ _ (quiet_oblique2018 _ _ _ _ _ _) E).
  assert (M : map shape [Hm0; Tmm10; beta; gamma_b; gamma_f; cot] = map shape [Hm0; Tmm10; gb; gamma_b; gamma_f; cot]) by (cbn [map]; rewrite S; reflexivity).
  unfold ArrRunupTAW2002.calculate_dimensionless_wave_runup_height_z2p.
  rewrite (body_warned Hm0 Tmm10 anan gb gamma_b gamma_f B_berm db cot down up gb d1 d2 d3 d4 false x FC SN O X (or_introl (conj FG eq_refl)) _
    (RunupTAW2002.runup_upto RunupTAW2002.depth_limit) sh (shapes_common _ _ _ M C) F NE A w).
  assert (SB : stretches (shape beta) sh) by (destruct C as (FA & _); args_tac; assumption).
  split; intros (i & I & J); exists i; (split; [exact I|]); cbv beta zeta in *; rewrite (V sh i SB I) in *; exact J.
Qed.

(** ** Van Gent (2025) *)
Section VanGent.
Variables (Hm0 Hm0_swell Tmm10 r Ac cot_alpha beta B_berm db Dn50 gamma_f gamma_b gamma_v gamma_beta : nums) (g : num) (design wind : bool).
Variables (obs bs fs : list nums).
Hypothesis HO : factor_from gamma_beta [beta] obs.
Hypothesis HB : factor_from gamma_b [Ac; B_berm; db] bs.
Hypothesis HF : factor_from gamma_f [Dn50] fs.
Hypothesis HK : stone_known gamma_f Dn50.

Lemma quiet_is_nan (a : nums) : quiet (is_nan a).
Proof. apply quiet_holds. quiet_tac. Qed.
Lemma quiet_vg_beta : quiet (ArrVanGent2025.factor_beta beta gamma_beta).
Proof.
  unfold ArrVanGent2025.factor_beta. apply quiet_bind; [apply quiet_is_nan|]. intros b. apply quiet_if; [|reflexivity].
  unfold ArrVanGent2025.calculate_influence_oblique_waves_gamma_beta. autounfold with arrays. quiet_tac.
Qed.
Lemma quiet_vg_b : quiet (ArrVanGent2025.factor_b Hm0 Tmm10 Ac B_berm db gamma_b).
Proof.
  unfold ArrVanGent2025.factor_b. apply quiet_bind; [apply quiet_is_nan|]. intros b. apply quiet_if; [|reflexivity].
  unfold ArrVanGent2025.calculate_influence_berm_gamma_b. autounfold with arrays. quiet_tac.
Qed.
Lemma quiet_vg_f : quiet (ArrVanGent2025.factor_f Hm0 Tmm10 Dn50 gamma_f).
Proof.
  unfold ArrVanGent2025.factor_f. apply quiet_bind; [apply quiet_is_nan|]. intros b. apply quiet_if; [|reflexivity].
  apply quiet_bind; [apply quiet_is_nan|]. intros c. apply quiet_if; [reflexivity|].
  unfold ArrVanGent2025.calculate_influence_friction_gamma_f. autounfold with arrays. quiet_tac.
Qed.

Lemma told_vg sh Rc (vRc : (nums -> num) -> num) : sh <> Some 0 -> Forall (fun a => stretches (shape a) sh) [Hm0; Tmm10; cot_alpha; beta; Dn50; Ac; B_berm; db; Rc] ->
  Forall all_or_none [Hm0; Tmm10; beta; cot_alpha; Dn50; Ac] -> den sh (value_of Rc) (fun i => vRc (place i)) -> throughout sh vRc ->
  told sh (ArrVanGent2025.check_validity_range Hm0 anan Tmm10 beta anan cot_alpha Dn50 Rc Ac anan B_berm db)
    (fun i => VanGent2025.check_validity_range (place i Hm0) NaN (place i Tmm10) (place i beta) NaN (place i cot_alpha) (place i Dn50) (vRc (place i)) (place i Ac) NaN (place i B_berm) (place i db)).
Proof.
  intros NE F A D T. args_tac. unfold ArrVanGent2025.check_validity_range, VanGent2025.check_validity_range, anan. told_tac.
Qed.

Lemma q_vg_warned : warned (([Hm0; Hm0_swell; Tmm10; r; cot_alpha; gamma_v] ++ obs ++ bs ++ fs) ++ (if wind then [Ac] else [])) [beta; Ac; B_berm; db; Dn50]
    [Hm0; Tmm10; r; beta; cot_alpha; Dn50; Ac]
    (ArrVanGent2025.calculate_dimensionless_overtopping_discharge_q Hm0 Hm0_swell Tmm10 r Ac cot_alpha beta B_berm db Dn50 gamma_f gamma_b gamma_v gamma_beta design wind)
    (fun at_ => VanGent2025.calculate_dimensionless_overtopping_discharge_q (at_ Hm0) (at_ Hm0_swell) (at_ Tmm10) (at_ r) (at_ Ac) (at_ cot_alpha) (at_ beta)
       (at_ B_berm) (at_ db) (at_ Dn50) (at_ gamma_f) (at_ gamma_b) (at_ gamma_v) (at_ gamma_beta) design wind).
Proof.
  intros sh C F NE A. pose proof C as (FA & _). pose proof FA as FB. apply Forall_app in FA as (FA & FW).
  destruct (ArraysVanGent2025.part_f Hm0 Tmm10 _ _ _ HF HK) as (_ & P).
  destruct (ArraysVanGent2025.C70_q_diml Hm0 Hm0_swell Tmm10 r Ac cot_alpha beta B_berm db Dn50 gamma_f gamma_b gamma_v gamma_beta design wind obs bs fs HO HB HF HK) as (Q & _).
  destruct (common_exists _ _ FA) as (t & Ct).
  destruct (Q t sh Ct C) as (z & m & E & _).
  { exists sh. rewrite app_assoc. apply Forall_app. split; [exact FB|]. args_tac. reached_tac. }
  clear Q. pose proof (ArraysVanGent2025.core_forall Hm0 Hm0_swell Tmm10 r cot_alpha gamma_v obs bs fs sh FA) as ((S1 & S2 & S3 & S4 & S5 & S6) & _).
  apply (warns_ext sh _ (ArrVanGent2025.check_validity_range Hm0 anan Tmm10 beta anan cot_alpha Dn50 r Ac anan B_berm db) _
    (fun i => VanGent2025.check_validity_range (place i Hm0) NaN (place i Tmm10) (place i beta) NaN (place i cot_alpha) (place i Dn50) (place i r) (place i Ac) NaN (place i B_berm) (place i db))).
  - unfold ArrVanGent2025.calculate_dimensionless_overtopping_discharge_q in *.
    apply through in E as (gb & _ & E & ->); [|apply quiet_vg_beta]. apply through in E as (k & _ & E & ->); [|autounfold with arrays; quiet_tac].
    apply through in E as (b & _ & E & ->); [|apply quiet_vg_b]. apply through in E as (f & _ & E & ->); [|apply quiet_vg_f].
    apply through in E as (x & _ & E & ->); [|unfold ArrVanGent2025.q_diml_equation; autounfold with arrays; quiet_tac].
    apply through in E as (y & _ & E & ->); [|unfold ArrVanGent2025.q_diml_max_equation; autounfold with arrays; quiet_tac].
    apply through in E as (l & _ & E & ->); [|apply quiet_stacked_min]. apply through in E as (n & _ & E & ->); [|apply quiet_flag].
    apply through in E as (u & _ & E & ->).
    + apply warns_tail. reflexivity.
    + unfold ArrVanGent2025.after_minimum, ArrVanGent2025.calculate_influence_wind_gamma_w. apply quiet_bind; [apply quiet_if; autounfold with arrays; quiet_tac|].
      intros; apply quiet_if; autounfold with arrays; quiet_tac.
  - intros i I. unfold VanGent2025.calculate_dimensionless_overtopping_discharge_q. rewrite P, bind_ret_l. cbv zeta. apply warns_tail. reflexivity.
  - apply (told_vg sh r (fun at_ => at_ r)); [exact NE|args_tac; reached_tac|args_tac; reached_tac|apply den_leaf; assumption|].
    assert (AR : all_or_none r) by (args_tac; assumption). destruct AR as [AR|AR]; [right|left]; intros i I.
    + apply (filled_place r sh i); assumption.
    + rewrite (missing_place _ _ AR). reflexivity.
Qed.

Lemma quiet_until next feed tol todo : (forall s, quiet (next s)) -> (forall s, quiet (feed s)) -> forall (state prev diff : nums) cur,
  quiet (until_settled next feed tol todo state prev diff cur).
Proof.
  intros T T'. assert (G : forall d, quiet (greatest d)) by (intros [x|[|x l]]; reflexivity).
  induction todo as [|todo IH]; intros state prev diff cur; cbn [until_settled]; (apply quiet_bind; [apply G|]; intros most; apply quiet_if; [|reflexivity]).
  - reflexivity.
  - apply quiet_bind; [apply T|]. intros y. apply quiet_bind; [apply T'|]. intros s. apply quiet_bind; [unfold aabs; quiet_tac|]. intros d. apply IH.
Qed.

Lemma Rc_vg_warns max_iter tol z m :
  value (ArrVanGent2025.calculate_dimensionless_crest_freeboard Hm0 Hm0_swell Tmm10 r Ac cot_alpha beta B_berm db Dn50 gamma_f gamma_b gamma_v gamma_beta g design wind max_iter tol) = Ok (z, m) ->
  exists Rc : nums, value (z * Hm0)%arr = Ok Rc /\
  warns (ArrVanGent2025.calculate_dimensionless_crest_freeboard Hm0 Hm0_swell Tmm10 r Ac cot_alpha beta B_berm db Dn50 gamma_f gamma_b gamma_v gamma_beta g design wind max_iter tol)
  = warns (ArrVanGent2025.check_validity_range Hm0 anan Tmm10 beta anan cot_alpha Dn50 Rc Ac anan B_berm db).
Proof.
  intros E. unfold ArrVanGent2025.calculate_dimensionless_crest_freeboard in *.
  apply through in E as (gb & _ & E & ->); [|apply quiet_vg_beta]. apply through in E as (k & _ & E & ->); [|autounfold with arrays; quiet_tac].
  apply through in E as (b & _ & E & ->); [|apply quiet_vg_b]. apply through in E as (f & _ & E & ->); [|apply quiet_vg_f].
  apply through in E as (q & _ & E & ->); [|unfold float; autounfold with arrays; quiet_tac].
  apply through in E as (q' & _ & E & ->); [|apply quiet_if; autounfold with arrays; quiet_tac].
  apply through in E as (R & _ & E & ->); [|unfold ArrVanGent2025.Rc_diml_equation; autounfold with arrays; quiet_tac].
  apply through in E as (R' & _ & E & ->).
  2:{ apply quiet_if; [|reflexivity]. apply quiet_bind; [|intros [x|]; reflexivity]. apply quiet_until; [|reflexivity].
      intros s. unfold ArrVanGent2025.wind_step, ArrVanGent2025.calculate_influence_wind_gamma_w, ArrVanGent2025.Rc_diml_equation. autounfold with arrays. quiet_tac. }
  apply through in E as (Rm & _ & E & ->); [|unfold ArrVanGent2025.Rc_diml_max_equation; autounfold with arrays; quiet_tac].
  apply through in E as (l & _ & E & ->); [|apply quiet_stacked_min]. apply through in E as (n & _ & E & ->); [|apply quiet_flag].
  apply through in E as (Rc & ER & E & ->); [|autounfold with arrays; quiet_tac].
  apply step in E as (u & _ & E). injection E as <- <-. exists Rc. split; [exact ER|]. apply warns_tail. reflexivity.
Qed.

Lemma Rc_vg_at i max_iter tol x b :
  value (VanGent2025.calculate_dimensionless_crest_freeboard (place i Hm0) (place i Hm0_swell) (place i Tmm10) (place i r) (place i Ac) (place i cot_alpha) (place i beta)
     (place i B_berm) (place i db) (place i Dn50) (place i gamma_f) (place i gamma_b) (place i gamma_v) (place i gamma_beta) g design wind max_iter tol) = Ok (x, b) ->
  warns (VanGent2025.calculate_dimensionless_crest_freeboard (place i Hm0) (place i Hm0_swell) (place i Tmm10) (place i r) (place i Ac) (place i cot_alpha) (place i beta)
     (place i B_berm) (place i db) (place i Dn50) (place i gamma_f) (place i gamma_b) (place i gamma_v) (place i gamma_beta) g design wind max_iter tol)
  = warns (VanGent2025.check_validity_range (place i Hm0) NaN (place i Tmm10) (place i beta) NaN (place i cot_alpha) (place i Dn50) (x * place i Hm0)%num (place i Ac) NaN (place i B_berm) (place i db)).
Proof.
  destruct (ArraysVanGent2025.part_f Hm0 Tmm10 _ _ _ HF HK) as (_ & P).
  unfold VanGent2025.calculate_dimensionless_crest_freeboard. rewrite P, bind_ret_l. cbv zeta. rewrite value_bind, ArraysVanGent2025.scalar_check.
  cbn [value ret snd]. intros E. injection E as <- _. apply warns_tail. reflexivity.
Qed.

Lemma Rc_vg_places sh max_iter tol n tol' z m :
  sh <> Some 0 -> Forall (fun a => stretches (shape a) sh) [Hm0; Tmm10; cot_alpha; beta; Ac; B_berm; db; Dn50] -> Forall all_or_none [Hm0; Tmm10; beta; cot_alpha; Dn50; Ac] ->
  let scalar at_ := VanGent2025.calculate_dimensionless_crest_freeboard (at_ Hm0) (at_ Hm0_swell) (at_ Tmm10) (at_ r) (at_ Ac) (at_ cot_alpha) (at_ beta)
       (at_ B_berm) (at_ db) (at_ Dn50) (at_ gamma_f) (at_ gamma_b) (at_ gamma_v) (at_ gamma_beta) g design wind n tol' in
  let call := ArrVanGent2025.calculate_dimensionless_crest_freeboard Hm0 Hm0_swell Tmm10 r Ac cot_alpha beta B_berm db Dn50 gamma_f gamma_b gamma_v gamma_beta g design wind max_iter tol in
  throughout sh (fun at_ => outcome (x <- scalar at_ ;; ret (fst x * at_ Hm0)%num)) ->
  value call = Ok (z, m) -> stretches (shape z) sh -> (forall i, inside sh i -> exists b, value (scalar (place i)) = Ok (place i z, b)) ->
  forall w, In w (warns call) <-> exists i, inside sh i /\ In w (warns (scalar (place i))).
Proof.
  intros NE F A scalar call T E SZ V. destruct (Rc_vg_warns max_iter tol z m E) as (Rc & ER & W).
  assert (S1 : stretches (shape Hm0) sh) by (args_tac; assumption). change (arr num) with nums in *.
  assert (D : den sh (z * Hm0)%arr (fun i => place i z * place i Hm0)%num) by (autounfold with arrays; den_tac). destruct D as (Rc' & E' & SR & VR).
  pose proof (eq_trans (eq_sym E') ER) as EQ. injection EQ as ->.
  apply (warns_ext sh _ (ArrVanGent2025.check_validity_range Hm0 anan Tmm10 beta anan cot_alpha Dn50 Rc Ac anan B_berm db) _
    (fun i => VanGent2025.check_validity_range (place i Hm0) NaN (place i Tmm10) (place i beta) NaN (place i cot_alpha) (place i Dn50) (place i z * place i Hm0)%num (place i Ac) NaN (place i B_berm) (place i db))).
  - exact W.
  - intros i I. destruct (V i I) as (b & Vb). apply (Rc_vg_at i n tol' _ b Vb).
  - apply (told_vg sh Rc (fun at_ => at_ z * at_ Hm0)%num); [exact NE| |exact A| |].
    + args_tac. reached_tac.
    + exists Rc. split; [reflexivity|]. split; [exact SR|exact VR].
    + assert (Z : forall i, inside sh i -> outcome (x <- scalar (place i) ;; ret (fst x * place i Hm0)%num) = (place i z * place i Hm0)%num).
      { intros i I. destruct (V i I) as (b & Vb). unfold outcome. rewrite value_bind, Vb. reflexivity. }
      destruct T as [T|T]; [left|right]; intros i I; rewrite <- (Z i I); apply T, I.
Qed.
End VanGent.
