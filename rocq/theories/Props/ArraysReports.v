(** Property C75: what overtopping and run-up with arrays report. *)
From Coq Require Import Reals Lra Lia List Bool Arith String.
From Verif.Lib Require Import Num Monad Arr ArrFlags ArrLoop RTac NTac.
From Verif.Spec Require Import Arrays ArrayFlags ArrayLoops ArrayStacks ArrayOne ArrayWide ArrayWarnings ArrayCalls ArrayReports.
From Verif.Model Require Import CoreUtility ArrCore.
From Verif.Model Require CorePhysics RunupTAW2002 ArrRunupTAW2002 RunupEurotop2018 ArrRunupEurotop2018 OvertoppingTAW2002 ArrOvertoppingTAW2002
  OvertoppingEurotop2007 ArrOvertoppingEurotop2007 OvertoppingEurotop2018 ArrOvertoppingEurotop2018 VanGent2025 ArrVanGent2025.
From Verif.Proofs Require Import Core CheckTac Arrays ArrayLoops ArrayFlags ArrayTaw ArrayTawDischarge ArrayStacks ArrayWarnings ArrayEurotop ArrayReports ArrayReportsMore.
From Verif.Props Require ArraysRunupTAW ArraysOvertoppingTAW ArraysVanGent2025 OvertoppingVanGent25.
Import ListNotations.
Open Scope nat_scope.

Ltac tail_tac := intros; cbv beta; try match goal with p : (_ * _)%type |- _ => destruct p end; first [reflexivity|apply quiet_bind; [unfold float; autounfold with arrays; quiet_tac|reflexivity]|unfold float; autounfold with arrays; quiet_tac].

(** ** TAW (2002) *)

(** The warning that sigma cannot be used is among them: whatever sigma is. *)
Theorem C75_taw_discharge_diml : forall Hm0 Tmm10 Rc cot down up beta B_berm db gamma_beta gamma_b gamma_f gamma_v sigma best ob bf,
  filled cot -> missing down \/ missing up -> oblique_by beta gamma_beta ob -> berm_by gamma_b B_berm bf ->
  warned [Hm0; Tmm10; Rc; ob; bf; gamma_f; cot] [beta; down; up; gamma_v] [Hm0; Tmm10; gamma_f; beta; down; up; gamma_v]
    (ArrOvertoppingTAW2002.calculate_dimensionless_overtopping_discharge_q Hm0 Tmm10 Rc cot down up beta B_berm db gamma_beta gamma_b gamma_f gamma_v (float sigma) best)
    (fun at_ => OvertoppingTAW2002.calculate_dimensionless_overtopping_discharge_q (at_ Hm0) (at_ Tmm10) (at_ Rc) (at_ cot) (at_ down) (at_ up)
       (at_ beta) (at_ B_berm) (at_ db) (at_ gamma_beta) (at_ gamma_b) (at_ gamma_f) (at_ gamma_v) sigma best).
Proof. intros. apply q_warned; assumption. Qed.

Theorem C75_taw_discharge : forall Hm0 Tmm10 Rc cot down up beta B_berm db gamma_beta gamma_b gamma_f gamma_v sigma g best ob bf,
  filled cot -> missing down \/ missing up -> oblique_by beta gamma_beta ob -> berm_by gamma_b B_berm bf ->
  warned [Hm0; Tmm10; Rc; ob; bf; gamma_f; cot] [beta; down; up; gamma_v] [Hm0; Tmm10; gamma_f; beta; down; up; gamma_v]
    (ArrOvertoppingTAW2002.calculate_overtopping_discharge_q Hm0 Tmm10 Rc cot down up beta B_berm db gamma_beta gamma_b gamma_f gamma_v (float sigma) (float g) best)
    (fun at_ => OvertoppingTAW2002.calculate_overtopping_discharge_q (at_ Hm0) (at_ Tmm10) (at_ Rc) (at_ cot) (at_ down) (at_ up)
       (at_ beta) (at_ B_berm) (at_ db) (at_ gamma_beta) (at_ gamma_b) (at_ gamma_f) (at_ gamma_v) sigma g best).
Proof. intros. eapply warned_tail; [apply q_warned; eassumption|tail_tac|tail_tac]. Qed.

Theorem C75_taw_freeboard_diml : forall Hm0 Tmm10 q cot down up beta B_berm db gamma_beta gamma_b gamma_f gamma_v sigma g best ob bf,
  filled cot -> missing down \/ missing up -> oblique_by beta gamma_beta ob -> berm_by gamma_b B_berm bf ->
  warned [Hm0; Tmm10; q; ob; bf; gamma_f; cot] [beta; down; up; gamma_v] [Hm0; Tmm10; gamma_f; beta; down; up; gamma_v]
    (ArrOvertoppingTAW2002.calculate_dimensionless_crest_freeboard Hm0 Tmm10 q cot down up beta B_berm db gamma_beta gamma_b gamma_f gamma_v (float sigma) (float g) best)
    (fun at_ => OvertoppingTAW2002.calculate_dimensionless_crest_freeboard (at_ Hm0) (at_ Tmm10) (at_ q) (at_ cot) (at_ down) (at_ up)
       (at_ beta) (at_ B_berm) (at_ db) (at_ gamma_beta) (at_ gamma_b) (at_ gamma_f) (at_ gamma_v) sigma g best).
Proof. intros. apply Rc_warned; assumption. Qed.

Theorem C75_taw_freeboard : forall Hm0 Tmm10 q cot down up beta B_berm db gamma_beta gamma_b gamma_f gamma_v sigma g best ob bf,
  filled cot -> missing down \/ missing up -> oblique_by beta gamma_beta ob -> berm_by gamma_b B_berm bf ->
  warned [Hm0; Tmm10; q; ob; bf; gamma_f; cot] [beta; down; up; gamma_v] [Hm0; Tmm10; gamma_f; beta; down; up; gamma_v]
    (ArrOvertoppingTAW2002.calculate_crest_freeboard_Rc Hm0 Tmm10 q cot down up beta B_berm db gamma_beta gamma_b gamma_f gamma_v (float sigma) (float g) best)
    (fun at_ => OvertoppingTAW2002.calculate_crest_freeboard_Rc (at_ Hm0) (at_ Tmm10) (at_ q) (at_ cot) (at_ down) (at_ up)
       (at_ beta) (at_ B_berm) (at_ db) (at_ gamma_beta) (at_ gamma_b) (at_ gamma_f) (at_ gamma_v) sigma g best).
Proof. intros. eapply warned_tail; [apply Rc_warned; eassumption|tail_tac|tail_tac]. Qed.

(** Run-up on a single slope with the influence factor of the berm *)
Theorem C75_taw_runup_diml : forall Hm0 Tmm10 beta gamma_beta gamma_b gamma_f B_berm db cot down up c1 c2 c3 c4 best ob x,
  filled cot -> missing down \/ missing up -> one_number gamma_b x -> isnan x = false -> oblique_by beta gamma_beta ob ->
  warned [Hm0; Tmm10; ob; gamma_b; gamma_f; cot] [] [Hm0; Tmm10; gamma_f]
    (ArrRunupTAW2002.calculate_dimensionless_wave_runup_height_z2p Hm0 Tmm10 beta gamma_beta gamma_b gamma_f B_berm db cot down up c1 c2 c3 c4 best)
    (fun at_ => RunupTAW2002.calculate_dimensionless_wave_runup_height_z2p (at_ Hm0) (at_ Tmm10) (at_ beta) (at_ gamma_beta) (at_ gamma_b)
       (at_ gamma_f) (at_ B_berm) (at_ db) (at_ cot) (at_ down) (at_ up) c1 c2 c3 c4 best).
Proof. intros. apply (body_warned _ _ _ _ _ _ _ _ _ _ _ _ _ _ _ _ _ x); assumption. Qed.

Theorem C75_taw_runup : forall Hm0 Tmm10 beta gamma_beta gamma_b gamma_f B_berm db cot down up c1 c2 c3 c4 best ob x,
  filled cot -> missing down \/ missing up -> one_number gamma_b x -> isnan x = false -> oblique_by beta gamma_beta ob ->
  warned [Hm0; Tmm10; ob; gamma_b; gamma_f; cot] [] [Hm0; Tmm10; gamma_f]
    (ArrRunupTAW2002.calculate_wave_runup_height_z2p Hm0 Tmm10 beta gamma_beta gamma_b gamma_f B_berm db cot down up c1 c2 c3 c4 best)
    (fun at_ => RunupTAW2002.calculate_wave_runup_height_z2p (at_ Hm0) (at_ Tmm10) (at_ beta) (at_ gamma_beta) (at_ gamma_b)
       (at_ gamma_f) (at_ B_berm) (at_ db) (at_ cot) (at_ down) (at_ up) c1 c2 c3 c4 best).
Proof.
  intros. unfold ArrRunupTAW2002.calculate_wave_runup_height_z2p, RunupTAW2002.calculate_wave_runup_height_z2p. rewrite ArraysRunupTAW.limit, ArraysRunupTAW.unroll.
  eapply warned_tail; [apply (body_warned _ _ _ _ _ _ _ _ _ _ _ _ _ _ _ _ _ x); eassumption|tail_tac|tail_tac].
Qed.

(** ** EurOtop *)

(** The functions of EurOtop (2007) report nothing, for arrays as for numbers. *)
Theorem C75_eurotop2007 : forall Hm0 Tmm10 r beta gamma_beta gamma_f cot c2 c3 best g,
  silent (ArrOvertoppingEurotop2007.calculate_dimensionless_overtopping_discharge_q_rubble_mound Hm0 Tmm10 r beta gamma_beta gamma_f cot c2 c3 best)
  /\ silent (ArrOvertoppingEurotop2007.calculate_overtopping_discharge_q_rubble_mound Hm0 Tmm10 r beta gamma_beta gamma_f cot c2 c3 best (float g))
  /\ silent (ArrOvertoppingEurotop2007.calculate_dimensionless_crest_freeboard_rubble_mound Hm0 Tmm10 r beta gamma_beta gamma_f cot c2 c3 best)
  /\ silent (ArrOvertoppingEurotop2007.calculate_crest_freeboard_Rc_rubble_mound Hm0 Tmm10 r beta gamma_beta gamma_f cot c2 c3 best).
Proof.
  intros. split; [apply q2007_silent|]. split; [apply quiet_bind; [apply q2007_silent|tail_tac]|]. split; [apply Rc2007_silent|apply quiet_bind; [apply Rc2007_silent|tail_tac]].
Qed.
Theorem C75_eurotop2007_numbers : forall Hm0 Tmm10 r beta gamma_beta gamma_f cot c2 c3 best g,
  silent (OvertoppingEurotop2007.calculate_dimensionless_overtopping_discharge_q_rubble_mound Hm0 Tmm10 r beta gamma_beta gamma_f cot c2 c3 best)
  /\ silent (OvertoppingEurotop2007.calculate_overtopping_discharge_q_rubble_mound Hm0 Tmm10 r beta gamma_beta gamma_f cot c2 c3 best g)
  /\ silent (OvertoppingEurotop2007.calculate_dimensionless_crest_freeboard_rubble_mound Hm0 Tmm10 r beta gamma_beta gamma_f cot c2 c3 best)
  /\ silent (OvertoppingEurotop2007.calculate_crest_freeboard_Rc_rubble_mound Hm0 Tmm10 r beta gamma_beta gamma_f cot c2 c3 best).
Proof.
  intros.
  assert (Q : quiet (OvertoppingEurotop2007.influence_factors Hm0 Tmm10 beta gamma_beta gamma_f cot)).
  { unfold OvertoppingEurotop2007.influence_factors. apply quiet_bind; [apply quiet_all_beta_at|]. reflexivity. }
  assert (Qq : silent (OvertoppingEurotop2007.calculate_dimensionless_overtopping_discharge_q_rubble_mound Hm0 Tmm10 r beta gamma_beta gamma_f cot c2 c3 best)).
  { unfold OvertoppingEurotop2007.calculate_dimensionless_overtopping_discharge_q_rubble_mound. destruct (OvertoppingEurotop2007.check_best_fit c2 c3 best).
    apply quiet_bind; [exact Q|]. intros [? ?]. reflexivity. }
  assert (QR : silent (OvertoppingEurotop2007.calculate_dimensionless_crest_freeboard_rubble_mound Hm0 Tmm10 r beta gamma_beta gamma_f cot c2 c3 best)).
  { unfold OvertoppingEurotop2007.calculate_dimensionless_crest_freeboard_rubble_mound. destruct (OvertoppingEurotop2007.check_best_fit c2 c3 best).
    apply quiet_bind; [exact Q|]. intros [? ?]. reflexivity. }
  split; [exact Qq|]. split; [apply quiet_bind; [exact Qq|reflexivity]|]. split; [exact QR|apply quiet_bind; [exact QR|reflexivity]].
Qed.

(** The discharge and the freeboard of EurOtop (2018) report nothing for a single slope
    without a berm, whatever the other arguments. *)
Theorem C75_eurotop2018 : forall Hm0 Tmm10 r beta gamma_beta gamma_b gamma_f gamma_v gamma_star B_berm db cot down up c1 c2 c3 c4 best g,
  filled cot -> missing down \/ missing up -> one_number B_berm (Fin 0) ->
  silent (ArrOvertoppingEurotop2018.calculate_dimensionless_overtopping_discharge_q Hm0 Tmm10 r beta gamma_beta gamma_b gamma_f gamma_v gamma_star B_berm db cot down up c1 c2 c3 c4 best)
  /\ silent (ArrOvertoppingEurotop2018.calculate_overtopping_discharge_q Hm0 Tmm10 r beta gamma_beta gamma_b gamma_f gamma_v gamma_star B_berm db cot down up c1 c2 c3 c4 best (float g))
  /\ silent (ArrOvertoppingEurotop2018.calculate_dimensionless_crest_freeboard Hm0 Tmm10 r beta gamma_beta gamma_b gamma_f gamma_v gamma_star B_berm db cot down up c1 c2 c3 c4 best (float g))
  /\ silent (ArrOvertoppingEurotop2018.calculate_crest_freeboard_Rc Hm0 Tmm10 r beta gamma_beta gamma_b gamma_f gamma_v gamma_star B_berm db cot down up c1 c2 c3 c4 best (float g)).
Proof.
  intros. split; [apply q2018_silent; assumption|]. split; [apply quiet_bind; [apply q2018_silent; assumption|tail_tac]|].
  split; [apply Rc2018_silent; assumption|apply quiet_bind; [apply Rc2018_silent; assumption|tail_tac]].
Qed.
Theorem C75_eurotop2018_numbers : forall Hm0 Tmm10 r beta gamma_beta gamma_b gamma_f gamma_v gamma_star db cot down up c1 c2 c3 c4 best g,
  isnan cot = false -> isnan down = true \/ isnan up = true ->
  silent (OvertoppingEurotop2018.calculate_dimensionless_overtopping_discharge_q Hm0 Tmm10 r beta gamma_beta gamma_b gamma_f gamma_v gamma_star #0%num db cot down up c1 c2 c3 c4 best)
  /\ silent (OvertoppingEurotop2018.calculate_overtopping_discharge_q Hm0 Tmm10 r beta gamma_beta gamma_b gamma_f gamma_v gamma_star #0%num db cot down up c1 c2 c3 c4 best g)
  /\ silent (OvertoppingEurotop2018.calculate_dimensionless_crest_freeboard Hm0 Tmm10 r beta gamma_beta gamma_b gamma_f gamma_v gamma_star #0%num db cot down up c1 c2 c3 c4 best g)
  /\ silent (OvertoppingEurotop2018.calculate_crest_freeboard_Rc Hm0 Tmm10 r beta gamma_beta gamma_b gamma_f gamma_v gamma_star #0%num db cot down up c1 c2 c3 c4 best g).
Proof.
  intros * NC NS.
  assert (CS : RunupTAW2002.check_composite_slope cot down up = ret false).
  { unfold RunupTAW2002.check_composite_slope. rewrite NC. destruct NS as [->| ->]; cbn; [|rewrite andb_false_r]; reflexivity. }
  assert (QS : forall gb b, OvertoppingEurotop2018.slope Hm0 Tmm10 cot down up #0%num db gamma_f gb b = ret cot).
  { intros. unfold OvertoppingEurotop2018.slope. rewrite CS. reflexivity. }
  assert (QB : forall gb, quiet (OvertoppingEurotop2018.berm_and_roughness Hm0 Tmm10 cot down up #0%num db gamma_f gb)).
  { intros. unfold OvertoppingEurotop2018.berm_and_roughness, RunupTAW2002.calculate_berm_length. cbv zeta. rewrite CS, !bind_ret_l.
    unfold RunupEurotop2018.iteration_procedure_gamma_b.
    match goal with |- context [RunupEurotop2018.check_best_fit ?a ?b ?c ?d ?e] => destruct (RunupEurotop2018.check_best_fit a b c d e) as [[[e1 e2] e3] e4] end.
    unfold RunupTAW2002.iteration_procedure_gamma_b, RunupTAW2002.iteration_procedure_gamma_b_body.
    replace (neqb (#0)%num (#0)%num) with true by (symmetry; exact (Reqb_true _ _ eq_refl)). reflexivity. }
  assert (Qq : silent (OvertoppingEurotop2018.calculate_dimensionless_overtopping_discharge_q Hm0 Tmm10 r beta gamma_beta gamma_b gamma_f gamma_v gamma_star #0%num db cot down up c1 c2 c3 c4 best)).
  { unfold OvertoppingEurotop2018.calculate_dimensionless_overtopping_discharge_q. destruct (OvertoppingEurotop2018.check_best_fit c1 c2 c3 c4 best) as [[[e1 e2] e3] e4].
    apply quiet_bind; [apply quiet_beta2018_at|]. intros gb. rewrite QS, bind_ret_l. apply quiet_bind; [apply QB|]. intros; repeat match goal with p : (_ * _)%type |- _ => destruct p end; reflexivity. }
  assert (QR : silent (OvertoppingEurotop2018.calculate_dimensionless_crest_freeboard Hm0 Tmm10 r beta gamma_beta gamma_b gamma_f gamma_v gamma_star #0%num db cot down up c1 c2 c3 c4 best g)).
  { unfold OvertoppingEurotop2018.calculate_dimensionless_crest_freeboard. destruct (OvertoppingEurotop2018.check_best_fit c1 c2 c3 c4 best) as [[[e1 e2] e3] e4].
    apply quiet_bind; [apply quiet_beta2018_at|]. intros gb. rewrite QS, bind_ret_l. apply quiet_bind; [apply QB|]. intros; repeat match goal with p : (_ * _)%type |- _ => destruct p end; reflexivity. }
  split; [exact Qq|]. split; [apply quiet_bind; [exact Qq|intros [? ?]; reflexivity]|]. split; [exact QR|apply quiet_bind; [exact QR|intros [? ?]; reflexivity]].
Qed.

(** Rubble mounds: the slope is checked. *)
Theorem C75_eurotop2018_rubble_q_diml : forall Hm0 Tmm10 Rc beta gamma_beta gamma_f B_berm db cot down up c2 c3 best ob,
  filled cot -> missing down \/ missing up -> oblique_with beta gamma_beta gamma_f ob ->
  warned [Hm0; Tmm10; Rc; ob; gamma_f; cot] [] []
    (ArrOvertoppingEurotop2018.calculate_dimensionless_overtopping_discharge_q_rubble_mound Hm0 Tmm10 Rc beta gamma_beta gamma_f B_berm db cot down up c2 c3 best)
    (fun at_ => OvertoppingEurotop2018.calculate_dimensionless_overtopping_discharge_q_rubble_mound (at_ Hm0) (at_ Tmm10) (at_ Rc) (at_ beta)
       (at_ gamma_beta) (at_ gamma_f) (at_ B_berm) (at_ db) (at_ cot) (at_ down) (at_ up) c2 c3 best).
Proof. intros. apply q_rm_warned; assumption. Qed.
Theorem C75_eurotop2018_rubble_q : forall Hm0 Tmm10 Rc beta gamma_beta gamma_f B_berm db cot down up c2 c3 best g ob,
  filled cot -> missing down \/ missing up -> oblique_with beta gamma_beta gamma_f ob ->
  warned [Hm0; Tmm10; Rc; ob; gamma_f; cot] [] []
    (ArrOvertoppingEurotop2018.calculate_overtopping_discharge_q_rubble_mound Hm0 Tmm10 Rc beta gamma_beta gamma_f B_berm db cot down up c2 c3 best (float g))
    (fun at_ => OvertoppingEurotop2018.calculate_overtopping_discharge_q_rubble_mound (at_ Hm0) (at_ Tmm10) (at_ Rc) (at_ beta)
       (at_ gamma_beta) (at_ gamma_f) (at_ B_berm) (at_ db) (at_ cot) (at_ down) (at_ up) c2 c3 best g).
Proof. intros. eapply warned_tail; [apply q_rm_warned; eassumption|tail_tac|tail_tac]. Qed.
Theorem C75_eurotop2018_rubble_Rc_diml : forall Hm0 Tmm10 q beta gamma_beta gamma_f B_berm db cot down up c2 c3 best g ob,
  filled cot -> missing down \/ missing up -> oblique_with beta gamma_beta gamma_f ob ->
  warned [Hm0; Tmm10; q; ob; gamma_f; cot] [] []
    (ArrOvertoppingEurotop2018.calculate_dimensionless_crest_freeboard_rubble_mound Hm0 Tmm10 q beta gamma_beta gamma_f B_berm db cot down up c2 c3 best (float g))
    (fun at_ => OvertoppingEurotop2018.calculate_dimensionless_crest_freeboard_rubble_mound (at_ Hm0) (at_ Tmm10) (at_ q) (at_ beta)
       (at_ gamma_beta) (at_ gamma_f) (at_ B_berm) (at_ db) (at_ cot) (at_ down) (at_ up) c2 c3 best g).
Proof. intros. apply Rc_rm_warned; assumption. Qed.
Theorem C75_eurotop2018_rubble_Rc : forall Hm0 Tmm10 q beta gamma_beta gamma_f B_berm db cot down up c2 c3 best g ob,
  filled cot -> missing down \/ missing up -> oblique_with beta gamma_beta gamma_f ob ->
  warned [Hm0; Tmm10; q; ob; gamma_f; cot] [] []
    (ArrOvertoppingEurotop2018.calculate_crest_freeboard_Rc_rubble_mound Hm0 Tmm10 q beta gamma_beta gamma_f B_berm db cot down up c2 c3 best (float g))
    (fun at_ => OvertoppingEurotop2018.calculate_crest_freeboard_Rc_rubble_mound (at_ Hm0) (at_ Tmm10) (at_ q) (at_ beta)
       (at_ gamma_beta) (at_ gamma_f) (at_ B_berm) (at_ db) (at_ cot) (at_ down) (at_ up) c2 c3 best g).
Proof. intros. eapply warned_tail; [apply Rc_rm_warned; eassumption|tail_tac|tail_tac]. Qed.

(** Run-up *)
Theorem C75_eurotop2018_runup_diml : forall Hm0 Tmm10 beta gamma_beta gamma_b gamma_f B_berm db cot down up c1 c2 c3 c4 best x y,
  filled beta -> one_number gamma_f y -> filled cot -> missing down \/ missing up -> one_number gamma_b x -> isnan x = false ->
  warned [Hm0; Tmm10; beta; gamma_b; gamma_f; cot] [] [Hm0; Tmm10; gamma_f]
    (ArrRunupEurotop2018.calculate_dimensionless_wave_runup_height_z2p Hm0 Tmm10 beta gamma_beta gamma_b gamma_f B_berm db cot down up c1 c2 c3 c4 best)
    (fun at_ => RunupEurotop2018.calculate_dimensionless_wave_runup_height_z2p (at_ Hm0) (at_ Tmm10) (at_ beta) (at_ gamma_beta) (at_ gamma_b)
       (at_ gamma_f) (at_ B_berm) (at_ db) (at_ cot) (at_ down) (at_ up) c1 c2 c3 c4 best).
Proof. intros. eapply runup2018_warned; eassumption. Qed.
Theorem C75_eurotop2018_runup : forall Hm0 Tmm10 beta gamma_beta gamma_b gamma_f B_berm db cot down up c1 c2 c3 c4 best x y,
  filled beta -> one_number gamma_f y -> filled cot -> missing down \/ missing up -> one_number gamma_b x -> isnan x = false ->
  warned [Hm0; Tmm10; beta; gamma_b; gamma_f; cot] [] [Hm0; Tmm10; gamma_f]
    (ArrRunupEurotop2018.calculate_wave_runup_height_z2p Hm0 Tmm10 beta gamma_beta gamma_b gamma_f B_berm db cot down up c1 c2 c3 c4 best)
    (fun at_ => RunupEurotop2018.calculate_wave_runup_height_z2p (at_ Hm0) (at_ Tmm10) (at_ beta) (at_ gamma_beta) (at_ gamma_b)
       (at_ gamma_f) (at_ B_berm) (at_ db) (at_ cot) (at_ down) (at_ up) c1 c2 c3 c4 best).
Proof. intros. eapply warned_tail; [eapply runup2018_warned; eassumption|tail_tac|tail_tac]. Qed.

(** ** Van Gent (2025) *)
Section VanGent.
Variables (Hm0 Hm0_swell Tmm10 r Ac cot_alpha beta B_berm db Dn50 gamma_f gamma_b gamma_v gamma_beta : nums) (g : num) (design : bool).
Variables (obs bs fs : list nums).
Hypothesis HO : factor_from gamma_beta [beta] obs.
Hypothesis HB : factor_from gamma_b [Ac; B_berm; db] bs.
Hypothesis HF : factor_from gamma_f [Dn50] fs.
Hypothesis HK : stone_known gamma_f Dn50.

Theorem C75_vangent_q_diml : forall wind : bool,
  warned (([Hm0; Hm0_swell; Tmm10; r; cot_alpha; gamma_v] ++ obs ++ bs ++ fs) ++ (if wind then [Ac] else [])) [beta; Ac; B_berm; db; Dn50]
    [Hm0; Tmm10; r; beta; cot_alpha; Dn50; Ac]
    (ArrVanGent2025.calculate_dimensionless_overtopping_discharge_q Hm0 Hm0_swell Tmm10 r Ac cot_alpha beta B_berm db Dn50 gamma_f gamma_b gamma_v gamma_beta design wind)
    (fun at_ => VanGent2025.calculate_dimensionless_overtopping_discharge_q (at_ Hm0) (at_ Hm0_swell) (at_ Tmm10) (at_ r) (at_ Ac) (at_ cot_alpha) (at_ beta)
       (at_ B_berm) (at_ db) (at_ Dn50) (at_ gamma_f) (at_ gamma_b) (at_ gamma_v) (at_ gamma_beta) design wind).
Proof. intros. apply q_vg_warned; assumption. Qed.
Theorem C75_vangent_q : forall wind : bool,
  warned (([Hm0; Hm0_swell; Tmm10; r; cot_alpha; gamma_v] ++ obs ++ bs ++ fs) ++ (if wind then [Ac] else [])) [beta; Ac; B_berm; db; Dn50]
    [Hm0; Tmm10; r; beta; cot_alpha; Dn50; Ac]
    (ArrVanGent2025.calculate_overtopping_discharge_q Hm0 Hm0_swell Tmm10 r Ac cot_alpha beta B_berm db Dn50 gamma_f gamma_b gamma_v gamma_beta g design wind)
    (fun at_ => VanGent2025.calculate_overtopping_discharge_q (at_ Hm0) (at_ Hm0_swell) (at_ Tmm10) (at_ r) (at_ Ac) (at_ cot_alpha) (at_ beta)
       (at_ B_berm) (at_ db) (at_ Dn50) (at_ gamma_f) (at_ gamma_b) (at_ gamma_v) (at_ gamma_beta) g design wind).
Proof. intros. eapply warned_tail; [apply q_vg_warned; eassumption|tail_tac|tail_tac]. Qed.

(** The freeboard that is calculated is checked as well: it is a number at every place or at none. *)
Theorem C75_vangent_Rc_diml : forall max_iter tol sh,
  let scalar at_ := VanGent2025.calculate_dimensionless_crest_freeboard (at_ Hm0) (at_ Hm0_swell) (at_ Tmm10) (at_ r) (at_ Ac) (at_ cot_alpha) (at_ beta)
       (at_ B_berm) (at_ db) (at_ Dn50) (at_ gamma_f) (at_ gamma_b) (at_ gamma_v) (at_ gamma_beta) g design false max_iter tol in
  sh <> Some 0 -> common ([Hm0; Hm0_swell; Tmm10; r; cot_alpha; gamma_v] ++ obs ++ bs ++ fs) sh ->
  Forall (fun a => stretches (shape a) sh) [beta; Ac; B_berm; db; Dn50] -> Forall all_or_none [Hm0; Tmm10; beta; cot_alpha; Dn50; Ac] ->
  throughout sh (fun at_ => outcome (x <- scalar at_ ;; ret (fst x * at_ Hm0)%num)) ->
  forall w, In w (warns (ArrVanGent2025.calculate_dimensionless_crest_freeboard Hm0 Hm0_swell Tmm10 r Ac cot_alpha beta B_berm db Dn50 gamma_f gamma_b gamma_v gamma_beta g design false max_iter tol))
    <-> exists i, inside sh i /\ In w (warns (scalar (place i))).
Proof.
  intros max_iter tol sh scalar NE C F A T.
  destruct (ArraysVanGent2025.C70_Rc_diml Hm0 Hm0_swell Tmm10 r Ac cot_alpha beta B_berm db Dn50 gamma_f gamma_b gamma_v gamma_beta g design obs bs fs HO HB HF HK max_iter tol) as (Q & _).
  pose proof (proj1 C) as FA.
  pose proof (ArraysVanGent2025.core_forall Hm0 Hm0_swell Tmm10 r cot_alpha gamma_v obs bs fs sh FA) as ((S1 & S2 & S3 & S4 & S5 & S6) & _).
  destruct (Q sh sh C) as (z & m & E & Sz & _ & V).
  { rewrite app_nil_r. exact C. } { exists sh. rewrite app_nil_l. apply Forall_app. split; [exact FA|]. clear -F. args_tac. reached_tac. }
  apply (Rc_vg_places Hm0 Hm0_swell Tmm10 r Ac cot_alpha beta B_berm db Dn50 gamma_f gamma_b gamma_v gamma_beta g design false fs HF HK sh max_iter tol max_iter tol z m); try assumption.
  - clear -F S1 S3 S5. args_tac. reached_tac.
  - rewrite Sz. apply stretches_refl.
  - intros i I. destruct (V i I) as (b & _ & Vb). exists b. exact Vb.
Qed.

(** With wind the calculation is the scalar one with the number of iterations of C70. *)
Theorem C75_vangent_Rc_diml_wind : forall sh max_iter tol,
  let scalar n at_ := VanGent2025.calculate_dimensionless_crest_freeboard (at_ Hm0) (at_ Hm0_swell) (at_ Tmm10) (at_ r) (at_ Ac) (at_ cot_alpha) (at_ beta)
       (at_ B_berm) (at_ db) (at_ Dn50) (at_ gamma_f) (at_ gamma_b) (at_ gamma_v) (at_ gamma_beta) g design true n no_tolerance in
  sh <> Some 0 -> common ([Hm0; Hm0_swell; Tmm10; r; cot_alpha; gamma_v] ++ obs ++ bs ++ fs) sh ->
  Forall (fun a => stretches (shape a) sh) [beta; Ac; B_berm; db; Dn50] -> Forall all_or_none [Hm0; Tmm10; beta; cot_alpha; Dn50; Ac] ->
  1 <= max_iter -> ngt PInf tol = true ->
  exists n z m, settles sh max_iter tol
     (fun i => ArraysVanGent2025.windy_at Hm0 Hm0_swell Tmm10 r Ac cot_alpha beta B_berm db Dn50 gamma_f gamma_b gamma_v gamma_beta g design i 0)
     (fun i k => Ok (ArraysVanGent2025.windy_at Hm0 Hm0_swell Tmm10 r Ac cot_alpha beta B_berm db Dn50 gamma_f gamma_b gamma_v gamma_beta g design i k)) n
  /\ value (ArrVanGent2025.calculate_dimensionless_crest_freeboard Hm0 Hm0_swell Tmm10 r Ac cot_alpha beta B_berm db Dn50 gamma_f gamma_b gamma_v gamma_beta g design true max_iter tol) = Ok (z, m)
  /\ (forall i, inside sh i -> exists b, value (scalar n (place i)) = Ok (place i z, b))
  /\ (throughout sh (fun at_ => outcome (x <- scalar n at_ ;; ret (fst x * at_ Hm0)%num)) ->
      forall w, In w (warns (ArrVanGent2025.calculate_dimensionless_crest_freeboard Hm0 Hm0_swell Tmm10 r Ac cot_alpha beta B_berm db Dn50 gamma_f gamma_b gamma_v gamma_beta g design true max_iter tol))
        <-> exists i, inside sh i /\ In w (warns (scalar n (place i)))).
Proof.
  intros sh max_iter tol scalar NE C F A M T. pose proof (proj1 C) as FA.
  pose proof (ArraysVanGent2025.core_forall Hm0 Hm0_swell Tmm10 r cot_alpha gamma_v obs bs fs sh FA) as ((S1 & S2 & S3 & S4 & S5 & S6) & _).
  destruct (ArraysVanGent2025.C70_Rc_diml_wind Hm0 Hm0_swell Tmm10 r Ac cot_alpha beta B_berm db Dn50 gamma_f gamma_b gamma_v gamma_beta g design obs bs fs HO HB HF HK sh max_iter tol)
    as (n & z & m & St & E & Sz & _ & V); try assumption.
  { clear -F. args_tac. assumption. } { exists sh. apply Forall_app. split; [exact FA|]. clear -F. args_tac. reached_tac. }
  exists n, z, m. split; [exact St|]. split; [exact E|].
  assert (V' : forall i, inside sh i -> exists b, value (scalar n (place i)) = Ok (place i z, b)).
  { intros i I. destruct (V i I) as (b & _ & Vb). exists b. exact Vb. }
  split; [exact V'|]. intros TH.
  apply (Rc_vg_places Hm0 Hm0_swell Tmm10 r Ac cot_alpha beta B_berm db Dn50 gamma_f gamma_b gamma_v gamma_beta g design true fs HF HK sh max_iter tol n no_tolerance z m); try assumption.
  - clear -F S1 S3 S5. args_tac. reached_tac.
  - rewrite Sz. apply stretches_refl.
Qed.
End VanGent.

(** The freeboard in metres reports what the dimensionless freeboard reports. *)
Theorem C75_vangent_Rc : forall Hm0 Hm0_swell Tmm10 r Ac cot_alpha beta B_berm db Dn50 gamma_f gamma_b gamma_v gamma_beta design wind,
  warns (ArrVanGent2025.calculate_crest_freeboard_Rc Hm0 Hm0_swell Tmm10 r Ac cot_alpha beta B_berm db Dn50 gamma_f gamma_b gamma_v gamma_beta design wind)
  = warns (ArrVanGent2025.calculate_dimensionless_crest_freeboard Hm0 Hm0_swell Tmm10 r Ac cot_alpha beta B_berm db Dn50 gamma_f gamma_b gamma_v gamma_beta #9.81%num design wind
      VanGent2025.max_iter_default VanGent2025.tolerance_default).
Proof. intros. apply warns_tail. tail_tac. Qed.

(** ** Examples *)
Ltac fill := split; [discriminate|repeat (constructor; [reflexivity|]); constructor].
Ltac missed := unfold missing; repeat (constructor; [reflexivity|]); constructor.
Ltac stretched := unfold stretches; cbn; auto 6.
Ltac commons := split; [repeat (constructor; [solve [stretched]|]); constructor|
  right; repeat first [apply Exists_cons_hd; reflexivity|apply Exists_cons_tl]].
Ltac given_tac := repeat (constructor; [first [solve [left; fill]|solve [right; missed]]|]); constructor.

(** Slopes of 1 : 1.5 and 1 : 3 on a rubble mound: the one warning is that the second slope
    is too gentle. *)
Example C75_rubble_example : forall w,
  In w (warns (ArrOvertoppingEurotop2018.calculate_overtopping_discharge_q_rubble_mound (lit 1) (lit 5) (lit 2) anan (lit 1) (lit 0.5) (lit 0) (lit 0)
    (Ar [#1.5; #3]%num) anan anan NaN NaN true (lit 9.81)))
  <-> w = WRange "Cotangent alpha" "EurOtop (2018) - rubble mound" #3%num (#4 / #3)%num #2%num.
Proof.
  intros w.
  assert (H : warned [lit 1; lit 5; lit 2; lit 1; lit 0.5; Ar [#1.5; #3]%num] [] []
    (ArrOvertoppingEurotop2018.calculate_overtopping_discharge_q_rubble_mound (lit 1) (lit 5) (lit 2) anan (lit 1) (lit 0.5) (lit 0) (lit 0) (Ar [#1.5; #3]%num) anan anan NaN NaN true (float #9.81%num))
    (fun at_ => OvertoppingEurotop2018.calculate_overtopping_discharge_q_rubble_mound (at_ (lit 1)) (at_ (lit 5)) (at_ (lit 2)) (at_ anan)
       (at_ (lit 1)) (at_ (lit 0.5)) (at_ (lit 0)) (at_ (lit 0)) (at_ (Ar [#1.5; #3]%num)) (at_ anan) (at_ anan) NaN NaN true #9.81%num)).
  { apply C75_eurotop2018_rubble_q; [fill|left; missed|left; split; [fill|reflexivity]]. }
  unfold float in H. rewrite (H (Some 2)); [|commons|constructor|discriminate|constructor].
  assert (S : forall x, warns (OvertoppingEurotop2018.calculate_overtopping_discharge_q_rubble_mound #1 #5 #2 NaN #1 #0.5 #0 #0 (Fin x) NaN NaN NaN NaN true #9.81)%num
    = warns (check "Cotangent alpha" "EurOtop (2018) - rubble mound" (Fin x) (#4 / #3)%num #2%num)).
  { intros x. etransitivity; [apply warns_tail; reflexivity|].
    unfold OvertoppingEurotop2018.calculate_dimensionless_overtopping_discharge_q_rubble_mound. cbn [OvertoppingEurotop2018.check_best_fit].
    rewrite (warns_next _ #1%num); [|reflexivity|reflexivity]. rewrite (warns_next _ (Fin x)); [|reflexivity|reflexivity]. cbv zeta. apply warns_tail. reflexivity. }
  assert (D : (#4 / #3)%num = Fin (4 / 3)) by (nfin; reflexivity).
  assert (W : warns (check "Cotangent alpha" "EurOtop (2018) - rubble mound" #1.5%num (#4 / #3)%num #2%num) = []).
  { rewrite D. unfold check, check_variable_validity_range, check_values, ngt. nfin. rewrite !Rltb_false by lra. reflexivity. }
  assert (W' : warns (check "Cotangent alpha" "EurOtop (2018) - rubble mound" #3%num (#4 / #3)%num #2%num)
     = [WRange "Cotangent alpha" "EurOtop (2018) - rubble mound" #3%num (#4 / #3)%num #2%num]).
  { rewrite D. unfold check, check_variable_validity_range, check_values, ngt. nfin. rewrite (Rltb_true 2 3) by lra. rewrite orb_true_r. reflexivity. }
  split.
  - intros (i & I & J). cbn in I. destruct i as [|[|i]]; [| |lia].
    + exfalso. pose proof (S 1.5%R) as S0. rewrite W in S0. apply (in_nil (a := w)). rewrite <- S0. exact J.
    + assert (K : In w [WRange "Cotangent alpha" "EurOtop (2018) - rubble mound" #3%num (#4 / #3)%num #2%num]) by (rewrite <- W', <- (S 3%R); exact J).
      destruct K as [K|[]]. symmetry. exact K.
  - intros ->. exists 1. split; [cbn; lia|].
    assert (K : In (WRange "Cotangent alpha" "EurOtop (2018) - rubble mound" #3%num (#4 / #3)%num #2%num)
      (warns (OvertoppingEurotop2018.calculate_overtopping_discharge_q_rubble_mound #1 #5 #2 NaN #1 #0.5 #0 #0 #3 NaN NaN NaN NaN true #9.81)%num))
      by (rewrite (S 3%R), W'; left; reflexivity). exact K.
Qed.

(** Sigma with the design coefficients: that warning alone, once for any number of crest levels. *)
Example C75_sigma_example : forall w,
  In w (warns (ArrOvertoppingTAW2002.calculate_overtopping_discharge_q (lit 1) (lit 5) (Ar [#2; #3]%num) (lit 3) anan anan anan (lit 0) (lit 0) (lit 1) anan (lit 1) (lit 1) (lit 1) (lit 9.81) false))
  <-> w = WText OvertoppingTAW2002.sigma_warning.
Proof.
  intros w.
  pose proof (C75_taw_discharge (lit 1) (lit 5) (Ar [#2; #3]%num) (lit 3) anan anan anan (lit 0) (lit 0) (lit 1) anan (lit 1) (lit 1) #1%num #9.81%num false (lit 1) (lit 1)) as H.
  unfold float in H. specialize (H ltac:(fill) ltac:(left; missed) ArraysOvertoppingTAW.example_oblique ArraysOvertoppingTAW.example_berm (Some 2)).
  rewrite H; clear H.
  2: commons.
  2: { repeat (constructor; [solve [stretched]|]). constructor. }
  2: discriminate.
  2: given_tac.
  assert (S : forall x, warns (OvertoppingTAW2002.calculate_overtopping_discharge_q #1 #5 (Fin x) #3 NaN NaN NaN #0 #0 #1 NaN #1 #1 #1 #9.81 false)%num = [WText OvertoppingTAW2002.sigma_warning]).
  { intros x. etransitivity; [apply warns_tail; intros [? ?]; reflexivity|].
    unfold OvertoppingTAW2002.calculate_dimensionless_overtopping_discharge_q, OvertoppingTAW2002.corrections. cbn [OvertoppingTAW2002.coefficients].
    replace (neqb #1%num #0%num) with false by (symmetry; apply Reqb_false; lra).
    rewrite warns_bind. cbn [value snd bind warn ret app warns fst].
    match goal with |- context [OvertoppingTAW2002.influence_factors ?a ?b ?c ?d ?e ?f ?g ?h ?i ?j ?k] =>
      replace (OvertoppingTAW2002.influence_factors a b c d e f g h i j k) with (@ret (num * num * num * num * num) (v_beta anan (lit 1) 0, #3%num, v_ksi (lit 1) (lit 5) (lit 3) 0, #1%num, v_adj (lit 1) (lit 5) (lit 3) (lit 1) (lit 1) 0)) end.
    - reflexivity.
    - symmetry. apply (factors_at (lit 1) (lit 5) (lit 3) anan anan anan (lit 0) (lit 0) (lit 1) anan (lit 1) (lit 1) (lit 1) ltac:(fill) ltac:(left; missed)
        ArraysOvertoppingTAW.example_oblique ArraysOvertoppingTAW.example_berm None 0); [repeat (constructor; [solve [stretched]|]); constructor|cbn; lia]. }
  split.
  - intros (i & I & J). cbn in I. assert (K : In w [WText OvertoppingTAW2002.sigma_warning]).
    { destruct i as [|[|i]]; [rewrite <- (S 2%R); exact J|rewrite <- (S 3%R); exact J|lia]. }
    destruct K as [K|[]]. symmetry. exact K.
  - intros ->. exists 0. split; [cbn; lia|].
    assert (K : In (WText OvertoppingTAW2002.sigma_warning)
      (warns (OvertoppingTAW2002.calculate_overtopping_discharge_q #1 #5 #2 #3 NaN NaN NaN #0 #0 #1 NaN #1 #1 #1 #9.81 false)%num)) by (rewrite S; left; reflexivity).
    exact K.
Qed.

(** Slopes of 1 : 2 and 1 : 1 with Van Gent (2025): the discharge and the freeboard in
    metres warn about the second slope, the freeboard because the calculated freeboards are numbers. *)
Example C75_vangent_example :
  let w := WRange "Cotangent alpha slope" "Van Gent et al. (2025)" #1%num #1.5%num #8%num in
  In w (warns (ArrVanGent2025.calculate_overtopping_discharge_q (lit 1) (lit 0) (lit 5) (lit 2) (lit 2) (Ar [#2; #1]%num) anan (lit 0) (lit 0) anan (lit 0.5) (lit 1) (lit 1) (lit 1) #9.81%num false false))
  /\ In w (warns (ArrVanGent2025.calculate_crest_freeboard_Rc (lit 1) (lit 0) (lit 5) (lit 2) (lit 2) (Ar [#2; #1]%num) anan (lit 0) (lit 0) anan (lit 0.5) (lit 1) (lit 1) (lit 1) false false))
  /\ ~ In w (warns (ArrVanGent2025.calculate_overtopping_discharge_q (lit 1) (lit 0) (lit 5) (lit 2) (lit 2) (Ar [#2; #3]%num) anan (lit 0) (lit 0) anan (lit 0.5) (lit 1) (lit 1) (lit 1) #9.81%num false false)).
Proof.
  assert (F : forall x others, factor_from (lit x) others [lit x]) by (intros; exists (Fin x); split; [reflexivity|left; split; reflexivity]).
  assert (K : forall D, stone_known (lit 0.5) D) by (left; exists (Fin 0.5); split; reflexivity).
  assert (CH : forall Rc, In (WRange "Cotangent alpha slope" "Van Gent et al. (2025)" #1%num #1.5%num #8%num)
    (warns (VanGent2025.check_validity_range #1 NaN #5 NaN NaN #1 NaN Rc #2 NaN #0 #0)%num)).
  { intros Rc. unfold VanGent2025.check_validity_range. rewrite warns_bind. apply in_or_app. left.
    change (In (WRange "Cotangent alpha slope" "Van Gent et al. (2025)" #1%num #1.5%num #8%num) (warns (check "Cotangent alpha slope" "Van Gent et al. (2025)" #1%num #1.5%num #8%num))).
    unfold check, check_variable_validity_range, check_values, ngt, nlt. nfin. rewrite (Rltb_true 1 1.5) by lra. left. reflexivity. }
  assert (CN : forall cot Rc, (1.5 <= cot)%R -> ~ In (WRange "Cotangent alpha slope" "Van Gent et al. (2025)" #1%num #1.5%num #8%num)
    (warns (VanGent2025.check_validity_range #1 NaN #5 NaN NaN (Fin cot) NaN Rc #2 NaN #0 #0)%num)).
  { assert (O : forall n v lo hi w, In w (warns (check n "Van Gent et al. (2025)" v lo hi)) -> w = WRange n "Van Gent et al. (2025)" v lo hi).
    { intros n v lo hi w. unfold check, check_variable_validity_range, check_values. cbn [existsb map].
      match goal with |- context [if ?b then _ else _] => destruct b end; cbn; [intros [<-|[]]; reflexivity|intros []]. }
    intros cot Rc Hc. unfold VanGent2025.check_validity_range.
    intros I. repeat (rewrite warns_bind in I; apply in_app_or in I as [I|I];
      [unfold when in I; match type of I with context [if ?b then _ else _] => destruct b; [|destruct I] end; apply O in I; try discriminate I; injection I; intros; lra|
       match type of I with context [match ?v with Ok _ => _ | Err _ => _ end] => destruct v; [|destruct I] end]).
    unfold when in I. match type of I with context [if ?b then _ else _] => destruct b; [|destruct I] end. apply O in I. discriminate I. }
  assert (SQ : forall cot, exists R, warns (VanGent2025.calculate_overtopping_discharge_q #1 #0 #5 #2 #2 (Fin cot) NaN #0 #0 NaN #0.5 #1 #1 #1 #9.81 false false)%num
    = warns (VanGent2025.check_validity_range #1 NaN #5 NaN NaN (Fin cot) NaN R #2 NaN #0 #0)%num).
  { intros cot. exists #2%num. etransitivity; [apply warns_tail; intros [? ?]; reflexivity|].
    unfold VanGent2025.calculate_dimensionless_overtopping_discharge_q. rewrite (warns_next _ #0.5%num); [|reflexivity|reflexivity]. cbv zeta. apply warns_tail. reflexivity. }
  assert (SR : forall cot, exists R, warns (VanGent2025.calculate_dimensionless_crest_freeboard #1 #0 #5 #2 #2 (Fin cot) NaN #0 #0 NaN #0.5 #1 #1 #1 #9.81 false false VanGent2025.max_iter_default VanGent2025.tolerance_default)%num
    = warns (VanGent2025.check_validity_range #1 NaN #5 NaN NaN (Fin cot) NaN R #2 NaN #0 #0)%num).
  { intros cot. eexists. unfold VanGent2025.calculate_dimensionless_crest_freeboard. rewrite (warns_next _ #0.5%num); [|reflexivity|reflexivity]. cbv zeta. apply warns_tail. reflexivity. }
  intros w. subst w. split; [|split].
  - pose proof (C75_vangent_q (lit 1) (lit 0) (lit 5) (lit 2) (lit 2) (Ar [#2; #1]%num) anan (lit 0) (lit 0) anan (lit 0.5) (lit 1) (lit 1) (lit 1) #9.81%num false _ _ _ (F 1%R _) (F 1%R _) (F 0.5%R _) (K _) false (Some 2)) as H.
    rewrite H; clear H. 2: commons. 2: { repeat (constructor; [solve [stretched]|]). constructor. } 2: discriminate. 2: given_tac.
    exists 1. split; [cbn; lia|]. destruct (SQ 1%R) as (R & E).
    assert (G : In (WRange "Cotangent alpha slope" "Van Gent et al. (2025)" #1%num #1.5%num #8%num) (warns (VanGent2025.calculate_overtopping_discharge_q #1 #0 #5 #2 #2 #1 NaN #0 #0 NaN #0.5 #1 #1 #1 #9.81 false false)%num)) by (rewrite E; apply CH).
    exact G.
  - rewrite C75_vangent_Rc.
    pose proof (C75_vangent_Rc_diml (lit 1) (lit 0) (lit 5) (lit 2) (lit 2) (Ar [#2; #1]%num) anan (lit 0) (lit 0) anan (lit 0.5) (lit 1) (lit 1) (lit 1) #9.81%num false _ _ _ (F 1%R _) (F 1%R _) (F 0.5%R _) (K _)
      VanGent2025.max_iter_default VanGent2025.tolerance_default (Some 2)) as H. cbv zeta in H.
    rewrite H; clear H. 2: discriminate. 2: commons. 2: { repeat (constructor; [solve [stretched]|]). constructor. } 2: given_tac.
    + exists 1. split; [cbn; lia|]. destruct (SR 1%R) as (R & E).
      assert (G : In (WRange "Cotangent alpha slope" "Van Gent et al. (2025)" #1%num #1.5%num #8%num) (warns (VanGent2025.calculate_dimensionless_crest_freeboard #1 #0 #5 #2 #2 #1 NaN #0 #0 NaN #0.5 #1 #1 #1 #9.81 false false VanGent2025.max_iter_default VanGent2025.tolerance_default)%num)) by (rewrite E; apply CH).
      exact G.
    + right.
      assert (N : forall cot, (0 < cot)%R -> isnan (outcome (x <- VanGent2025.calculate_dimensionless_crest_freeboard #1 #0 #5 #2 #2 (Fin cot) NaN #0 #0 NaN #0.5 #1 #1 #1 #9.81 false false VanGent2025.max_iter_default VanGent2025.tolerance_default ;; ret (fst x * #1))%num) = false).
      { intros cot Hc. assert (V := OvertoppingVanGent25.Rv_value 1 5 cot 0.5 1 1 1 0 ltac:(lra) ltac:(lra) Hc #2%num NaN #0%num #0%num NaN 2%R false ltac:(lra)). cbv zeta in V.
        unfold VanGent2025.calculate_crest_freeboard_Rc in V. unfold outcome. rewrite value_bind in V. rewrite value_bind. change CorePhysics.g_default with #9.81%num in V.
        match type of V with context [VanGent2025.calculate_dimensionless_crest_freeboard ?a ?b ?c ?d ?e ?f ?g ?h ?i ?j ?k ?l ?m ?n ?o ?p ?q ?r ?s] =>
          destruct (value (VanGent2025.calculate_dimensionless_crest_freeboard a b c d e f g h i j k l m n o p q r s)) as [[R b0]|]; [|discriminate V] end.
        cbn in V |- *. injection V as V _. rewrite V. reflexivity. }
      intros i I. cbn in I. destruct i as [|[|i]]; [exact (N 2%R ltac:(lra))|exact (N 1%R ltac:(lra))|lia].
  - pose proof (C75_vangent_q (lit 1) (lit 0) (lit 5) (lit 2) (lit 2) (Ar [#2; #3]%num) anan (lit 0) (lit 0) anan (lit 0.5) (lit 1) (lit 1) (lit 1) #9.81%num false _ _ _ (F 1%R _) (F 1%R _) (F 0.5%R _) (K _) false (Some 2)) as H.
    rewrite H; clear H. 2: commons. 2: { repeat (constructor; [solve [stretched]|]). constructor. } 2: discriminate. 2: given_tac.
    intros (i & I & J). cbn in I. destruct (SQ 2%R) as (R & E). destruct (SQ 3%R) as (R' & E').
    destruct i as [|[|i]]; [|  |lia].
    + apply (CN 2%R R ltac:(lra)). rewrite <- E. exact J.
    + apply (CN 3%R R' ltac:(lra)). rewrite <- E'. exact J.
Qed.
