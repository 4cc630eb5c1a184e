(** Property C66: wave run-up of EurOtop (2018) with arrays. *)
From Coq Require Import Reals Lra Lia List Bool Arith.
From Verif.Lib Require Import Num Monad Arr ArrFlags ArrLoop RTac NTac.
From Verif.Spec Require Import Arrays ArrayFlags ArrayStacks.
From Verif.Model Require RunupTAW2002 RunupEurotop2018 ArrRunupTAW2002 ArrRunupEurotop2018.
From Verif.Proofs Require Import Arrays ArrayFlags ArrayTaw ArrayTawDischarge ArrayStacks ArrayEurotop.
From Verif.Props Require Import ArraysRunupTAW.
Import ListNotations.
Open Scope nat_scope.

Lemma oblique_filled (beta gb gamma_f : nums) y :
  shape gb = shape beta -> filled beta -> one_number gamma_f y ->
  (forall sh i, stretches (shape beta) sh -> inside sh i ->
     place i gb = RunupEurotop2018.calculate_influence_oblique_waves_gamma_beta (place i beta) (place i gamma_f)
       RunupEurotop2018.gamma_f_crit_default RunupEurotop2018.c_gamma_beta_smooth_default RunupEurotop2018.c_gamma_beta_rough_default
       RunupEurotop2018.max_angle_default) -> filled gb.
Proof.
  intros S F O V. destruct (filled_inside _ F) as (i & I). apply filled_from; rewrite S; [exists i; exact I|].
  intros j J. rewrite (V (shape beta) j (stretches_refl _) J).
  unfold RunupEurotop2018.calculate_influence_oblique_waves_gamma_beta, RunupEurotop2018.max_angle_default, RunupEurotop2018.c_gamma_beta_smooth_default,
    RunupEurotop2018.c_gamma_beta_rough_default.
  destruct (ngt (place j gamma_f) RunupEurotop2018.gamma_f_crit_default); apply oblique_number; apply (filled_place _ _ _ F (stretches_refl _) J).
Qed.

(** The dimensionless run-up: the roughness is one number, the influence factor of the berm is one
    number that is given *)
Theorem C66_runup_diml : forall Hm0 Tmm10 beta gamma_beta gamma_b gamma_f B_berm db cot down up c1 c2 c3 c4 best x y,
  filled beta -> one_number gamma_f y -> filled cot -> missing down \/ missing up -> one_number gamma_b x -> isnan x = false ->
  flagged [Hm0; Tmm10; beta; gamma_b; gamma_f; cot]
    (ArrRunupEurotop2018.calculate_dimensionless_wave_runup_height_z2p Hm0 Tmm10 beta gamma_beta gamma_b gamma_f B_berm db cot down up c1 c2 c3 c4 best)
    (fun at_ => value (RunupEurotop2018.calculate_dimensionless_wave_runup_height_z2p (at_ Hm0) (at_ Tmm10) (at_ beta) (at_ gamma_beta) (at_ gamma_b)
       (at_ gamma_f) (at_ B_berm) (at_ db) (at_ cot) (at_ down) (at_ up) c1 c2 c3 c4 best)).
Proof.
  intros * FB OF FC SN O X.
  unfold ArrRunupEurotop2018.calculate_dimensionless_wave_runup_height_z2p, RunupEurotop2018.calculate_dimensionless_wave_runup_height_z2p.
  destruct (RunupEurotop2018.check_best_fit c1 c2 c3 c4 best) as [[[d1 d2] d3] d4].
  destruct (oblique2018_value beta gamma_f y RunupEurotop2018.gamma_f_crit_default RunupEurotop2018.c_gamma_beta_smooth_default
    RunupEurotop2018.c_gamma_beta_rough_default RunupEurotop2018.max_angle_default OF) as (gb & E & S & V).
  pose proof (oblique_filled beta gb gamma_f y S FB OF V) as FG.
  destruct (C64_runup_diml Hm0 Tmm10 anan gb gamma_b gamma_f B_berm db cot down up d1 d2 d3 d4 false x FG FC SN O X) as (P & Q).
  assert (M : map shape [Hm0; Tmm10; beta; gamma_b; gamma_f; cot] = map shape [Hm0; Tmm10; gb; gamma_b; gamma_f; cot]) by (cbn [map]; rewrite S; reflexivity).
  split.
  - intros sh C. destruct (P sh (shapes_common _ _ _ M C)) as (r & m & Er & Sr & Sm & W).
    exists r, m. split; [exact (steps _ _ gb _ E Er)|]. split; [exact Sr|]. split; [exact Sm|].
    intros i I. destruct (W i I) as (b & Eb & Es). exists b. split; [exact Eb|]. rewrite <- Es. cbv beta zeta.
    rewrite (V sh i); [reflexivity| |exact I]. destruct C as (F & _). args_tac. assumption.
  - intros N. rewrite value_bind, E. apply Q. intros C. apply N. exact (shapes_compatible _ _ (eq_sym M) C).
Qed.

Theorem C66_runup : forall Hm0 Tmm10 beta gamma_beta gamma_b gamma_f B_berm db cot down up c1 c2 c3 c4 best x y,
  filled beta -> one_number gamma_f y -> filled cot -> missing down \/ missing up -> one_number gamma_b x -> isnan x = false ->
  flagged [Hm0; Tmm10; beta; gamma_b; gamma_f; cot]
    (ArrRunupEurotop2018.calculate_wave_runup_height_z2p Hm0 Tmm10 beta gamma_beta gamma_b gamma_f B_berm db cot down up c1 c2 c3 c4 best)
    (fun at_ => value (RunupEurotop2018.calculate_wave_runup_height_z2p (at_ Hm0) (at_ Tmm10) (at_ beta) (at_ gamma_beta) (at_ gamma_b)
       (at_ gamma_f) (at_ B_berm) (at_ db) (at_ cot) (at_ down) (at_ up) c1 c2 c3 c4 best)).
Proof.
  intros * FB OF FC SN O X.
  destruct (C66_runup_diml Hm0 Tmm10 beta gamma_beta gamma_b gamma_f B_berm db cot down up c1 c2 c3 c4 best x y FB OF FC SN O X) as (P & Q).
  unfold ArrRunupEurotop2018.calculate_wave_runup_height_z2p. split.
  - intros sh C. eapply answers_times; [exact (P sh C)| |].
    + apply den_leaf. destruct C as (F & _). args_tac. assumption.
    + intros i z b I E. cbv beta. unfold RunupEurotop2018.calculate_wave_runup_height_z2p. cbv beta in E. rewrite value_bind, E. reflexivity.
  - intros N. apply stops_first. exact (Q N).
Qed.

(** ** Where it does not work *)
Section Stops.
Variables (Hm0 Tmm10 beta gamma_beta gamma_b gamma_f B_berm db cot down up : nums) (c1 c2 c3 c4 : num) (best : bool).

Lemma both_stop :
  stops (ArrRunupEurotop2018.calculate_dimensionless_wave_runup_height_z2p Hm0 Tmm10 beta gamma_beta gamma_b gamma_f B_berm db cot down up c1 c2 c3 c4 best) ->
  value (ArrRunupEurotop2018.calculate_wave_runup_height_z2p Hm0 Tmm10 beta gamma_beta gamma_b gamma_f B_berm db cot down up c1 c2 c3 c4 best) = Err ValueError
  /\ value (ArrRunupEurotop2018.calculate_dimensionless_wave_runup_height_z2p Hm0 Tmm10 beta gamma_beta gamma_b gamma_f B_berm db cot down up c1 c2 c3 c4 best) = Err ValueError.
Proof. intros S. split; [apply stops_first|]; exact S. Qed.
Lemma taw_stops :
  (forall gb e1 e2 e3 e4, stops (ArrRunupTAW2002.calculate_dimensionless_wave_runup_height_z2p Hm0 Tmm10 anan gb gamma_b gamma_f B_berm db cot down up e1 e2 e3 e4 false)) ->
  stops (ArrRunupEurotop2018.calculate_dimensionless_wave_runup_height_z2p Hm0 Tmm10 beta gamma_beta gamma_b gamma_f B_berm db cot down up c1 c2 c3 c4 best).
Proof.
  intros K. unfold ArrRunupEurotop2018.calculate_dimensionless_wave_runup_height_z2p.
  destruct (RunupEurotop2018.check_best_fit c1 c2 c3 c4 best) as [[[d1 d2] d3] d4].
  apply stops_then; [apply tame_oblique2018|]. intros gb _. apply K.
Qed.
End Stops.

(** The roughness decides which coefficient to use: it is one number, whatever the other arguments. *)
Theorem C66_runup_roughness : forall Hm0 Tmm10 beta gamma_beta gamma_b gamma_f B_berm db cot down up c1 c2 c3 c4 best n,
  shape gamma_f = Some n -> n <> 1 ->
  value (ArrRunupEurotop2018.calculate_wave_runup_height_z2p Hm0 Tmm10 beta gamma_beta gamma_b gamma_f B_berm db cot down up c1 c2 c3 c4 best) = Err ValueError
  /\ value (ArrRunupEurotop2018.calculate_dimensionless_wave_runup_height_z2p Hm0 Tmm10 beta gamma_beta gamma_b gamma_f B_berm db cot down up c1 c2 c3 c4 best) = Err ValueError.
Proof.
  intros * E N. apply both_stop. unfold ArrRunupEurotop2018.calculate_dimensionless_wave_runup_height_z2p.
  destruct (RunupEurotop2018.check_best_fit c1 c2 c3 c4 best) as [[[d1 d2] d3] d4].
  apply stops_first. apply (oblique2018_several _ _ n); assumption.
Qed.

(** The angle is needed, also when the influence factor is given: that is not used. *)
Theorem C66_runup_no_angle : forall Hm0 Tmm10 beta gamma_beta gamma_b gamma_f B_berm db cot down up c1 c2 c3 c4 best,
  missing beta ->
  value (ArrRunupEurotop2018.calculate_wave_runup_height_z2p Hm0 Tmm10 beta gamma_beta gamma_b gamma_f B_berm db cot down up c1 c2 c3 c4 best) = Err ValueError
  /\ value (ArrRunupEurotop2018.calculate_dimensionless_wave_runup_height_z2p Hm0 Tmm10 beta gamma_beta gamma_b gamma_f B_berm db cot down up c1 c2 c3 c4 best) = Err ValueError.
Proof.
  intros * N. apply both_stop. unfold ArrRunupEurotop2018.calculate_dimensionless_wave_runup_height_z2p.
  destruct (RunupEurotop2018.check_best_fit c1 c2 c3 c4 best) as [[[d1 d2] d3] d4].
  apply stops_then; [apply tame_oblique2018|]. intros gb E.
  assert (K : all_nan gb = true).
  { apply missing_all. unfold ArrRunupEurotop2018.calculate_influence_oblique_waves_gamma_beta in E. apply step in E as (s & _ & E).
    destruct (oblique_value beta (if s : bool then RunupEurotop2018.c_gamma_beta_smooth_default else RunupEurotop2018.c_gamma_beta_rough_default)
      RunupEurotop2018.max_angle_default) as (gb' & E' & S & V).
    pose proof (eq_trans (eq_sym E) E') as J. injection J as <-. unfold missing. apply Forall_forall. intros x X.
    assert (P : exists i, inside (shape gb) i /\ place i gb = x).
    { destruct gb as [y|l]; [exists 0; destruct X as [<-|[]]; split; [exact Logic.I|reflexivity]|].
      cbn [entries] in X. apply In_nth_error in X as (n & X). exists n. split; [cbn; apply nth_error_Some; congruence|].
      destruct l as [|y [|z l]]; [destruct n; discriminate| |].
      - destruct n as [|[|n]]; cbn in X; try discriminate. injection X as <-. reflexivity.
      - unfold place. cbn [at_]. rewrite X. reflexivity. }
    destruct P as (i & I & <-). rewrite S in I. rewrite (V (shape beta) i (stretches_refl _) I).
    pose proof (missing_place _ i N) as Q. destruct (place i beta); try discriminate Q.
    unfold RunupTAW2002.calculate_influence_oblique_waves_gamma_beta, RunupEurotop2018.max_angle_default, RunupEurotop2018.c_gamma_beta_smooth_default,
      RunupEurotop2018.c_gamma_beta_rough_default. destruct s; reflexivity. }
  unfold ArrRunupTAW2002.calculate_dimensionless_wave_runup_height_z2p, ArrRunupTAW2002.dimensionless_body.
  destruct (RunupTAW2002.best_fit_coefficients false d1 d2 d3 d4) as [[[e1 e2] e3] e4].
  apply stops_first. unfold ArrRunupTAW2002.check_calculate_gamma_beta. rewrite K. reflexivity.
Qed.

(** The influence factor of the berm is one number, ... *)
Theorem C66_runup_berm_factor : forall Hm0 Tmm10 beta gamma_beta gamma_b gamma_f B_berm db cot down up c1 c2 c3 c4 best n,
  missing down \/ missing up -> shape gamma_b = Some n -> n <> 1 ->
  value (ArrRunupEurotop2018.calculate_wave_runup_height_z2p Hm0 Tmm10 beta gamma_beta gamma_b gamma_f B_berm db cot down up c1 c2 c3 c4 best) = Err ValueError
  /\ value (ArrRunupEurotop2018.calculate_dimensionless_wave_runup_height_z2p Hm0 Tmm10 beta gamma_beta gamma_b gamma_f B_berm db cot down up c1 c2 c3 c4 best) = Err ValueError.
Proof. intros * SN E N. apply both_stop, taw_stops. intros. eapply C64_runup_berm_factor; eauto. Qed.

(** ... and it is given. *)
Theorem C66_runup_no_berm_factor : forall Hm0 Tmm10 beta gamma_beta gamma_b gamma_f B_berm db cot down up c1 c2 c3 c4 best x,
  missing down -> one_number gamma_b x -> isnan x = true ->
  value (ArrRunupEurotop2018.calculate_wave_runup_height_z2p Hm0 Tmm10 beta gamma_beta gamma_b gamma_f B_berm db cot down up c1 c2 c3 c4 best) = Err ValueError
  /\ value (ArrRunupEurotop2018.calculate_dimensionless_wave_runup_height_z2p Hm0 Tmm10 beta gamma_beta gamma_b gamma_f B_berm db cot down up c1 c2 c3 c4 best) = Err ValueError.
Proof. intros * SN E N. apply both_stop, taw_stops. intros. eapply C64_runup_no_berm_factor; eauto. Qed.

(** A composite slope does not go with arrays. *)
Theorem C66_runup_composite : forall Hm0 Tmm10 beta gamma_beta gamma_b gamma_f B_berm db cot down up c1 c2 c3 c4 best,
  filled down -> filled up -> all_finite Hm0 -> Exists is_array [Hm0; db; B_berm; down; up] ->
  value (ArrRunupEurotop2018.calculate_wave_runup_height_z2p Hm0 Tmm10 beta gamma_beta gamma_b gamma_f B_berm db cot down up c1 c2 c3 c4 best) = Err ValueError
  /\ value (ArrRunupEurotop2018.calculate_dimensionless_wave_runup_height_z2p Hm0 Tmm10 beta gamma_beta gamma_b gamma_f B_berm db cot down up c1 c2 c3 c4 best) = Err ValueError.
Proof. intros * FD FU FH X. apply both_stop, taw_stops. intros. apply C64_runup_composite; auto. Qed.

(** ** Examples *)
Open Scope arr_scope.
Definition coefs2018 {A} (f : num -> num -> num -> num -> A) : A :=
  f RunupEurotop2018.c1_default RunupEurotop2018.c2_default RunupEurotop2018.c3_default RunupEurotop2018.c4_default.

(** Two angles: two run-up heights *)
Example C66_runup_example :
  exists r m, value (coefs2018 (ArrRunupEurotop2018.calculate_wave_runup_height_z2p #2 #8 (Ar [#0; #30]%num) anan #1 #0.5 #0 #0 #3 anan anan) false) = Ok (r, m)
  /\ shape r = Some 2 /\ shape m = Some 2
  /\ exists b, at_ m 1 = Some b
     /\ value (coefs2018 (RunupEurotop2018.calculate_wave_runup_height_z2p #2 #8 #30 NaN #1 #0.5 #0 #0 #3 NaN NaN)%num false) = Ok (place 1 r, b).
Proof.
  assert (C : common [lit 2%R; lit 8%R; Ar [#0; #30]%num; lit 1%R; lit 0.5%R; lit 3%R] (Some 2)).
  { split; [repeat (constructor; [solve [unfold stretches; cbn; auto 6]|]); constructor|]. right. do 2 apply Exists_cons_tl. apply Exists_cons_hd. reflexivity. }
  unfold coefs2018.
  destruct (C66_runup (lit 2) (lit 8) (Ar [#0; #30]%num) anan (lit 1) (lit 0.5) (lit 0) (lit 0) (lit 3) anan anan
    RunupEurotop2018.c1_default RunupEurotop2018.c2_default RunupEurotop2018.c3_default RunupEurotop2018.c4_default false #1%num #0.5%num)
    as (H & _); [fill|reflexivity|fill|left; missed|reflexivity|reflexivity|].
  destruct (H _ C) as (r & m & E & Sr & Sm & P). exists r, m. split; [exact E|]. split; [exact Sr|]. split; [exact Sm|].
  destruct (P 1) as (b & Eb & V); [cbn; lia|]. exists b. split; [exact Eb|exact V].
Qed.

(** Two roughnesses are an error, and so is an influence factor in place of the angle. *)
Example C66_runup_stops_example :
  value (coefs2018 (ArrRunupEurotop2018.calculate_wave_runup_height_z2p #2 #8 #0 anan #1 (Ar [#0.5; #0.6]%num) #0 #0 #3 anan anan) false) = Err ValueError
  /\ value (coefs2018 (ArrRunupEurotop2018.calculate_wave_runup_height_z2p (Ar [#1; #2]%num) #8 anan #0.9 #1 #0.5 #0 #0 #3 anan anan) false) = Err ValueError
  /\ value (coefs2018 (ArrRunupEurotop2018.calculate_wave_runup_height_z2p (Ar [#1; #2]%num) #8 #0 anan #1 #0.5 #5 #0 anan #3 #4) false) = Err ValueError.
Proof.
  split; [|split].
  - apply C66_runup_roughness with 2; [reflexivity|discriminate].
  - apply C66_runup_no_angle. missed.
  - apply C66_runup_composite; [fill|fill|repeat constructor; eexists; reflexivity|]. apply Exists_cons_hd. discriminate.
Qed.
