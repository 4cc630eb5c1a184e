(** Property C64: the run-up of TAW (2002) with arrays. *)
From Coq Require Import Reals Lra Lia List Bool Arith String.
From Verif.Lib Require Import Num Monad Arr ArrFlags ArrLoop RTac NTac.
From Verif.Spec Require Import Arrays ArrayFlags.
From Verif.Model Require Import CoreUtility.
From Verif.Model Require CorePhysics ArrCore RunupTAW2002 ArrRunupTAW2002.
From Verif.Proofs Require Import Core CheckTac Arrays ArrayLoops ArrayFlags ArrayTaw.
Import ListNotations.
Open Scope nat_scope.

(** ** A single slope, and the influence of the berm given as one number *)

Section Single.
Variables (Hm0 Tmm10 beta gamma_beta gamma_b gamma_f B_berm db cot down up : nums) (c1 c2 c3 c4 : num) (best : bool) (x : num).
Hypotheses (SC : filled cot) (SN : missing down \/ missing up) (O : one_number gamma_b x) (X : isnan x = false).

Let array rec := ArrRunupTAW2002.dimensionless_body rec Hm0 Tmm10 beta gamma_beta gamma_b gamma_f B_berm db cot down up c1 c2 c3 c4 best.
Let pair i := runup_pair best (oblique (place i beta) (place i gamma_beta)) (place i gamma_b) (place i gamma_f)
  (CorePhysics.calculate_Iribarren_number_ksi (place i Hm0) (place i Tmm10) (place i cot)) c1 c2 c3 c4.

Lemma ksi_name sh : stretches (shape Hm0) sh -> stretches (shape Tmm10) sh -> stretches (shape cot) sh ->
  exists k : nums, value (ArrCore.calculate_Iribarren_number_ksi Hm0 Tmm10 cot) = Ok k /\ stretches (shape k) sh
  /\ den sh (value_of k) (fun i => CorePhysics.calculate_Iribarren_number_ksi (place i Hm0) (place i Tmm10) (place i cot))
  /\ Forall (fun s => stretches s (shape k)) [shape Hm0; shape Tmm10; shape cot].
Proof.
  intros. name sh (ArrCore.calculate_Iribarren_number_ksi Hm0 Tmm10 cot)
    (fun i => CorePhysics.calculate_Iribarren_number_ksi (place i Hm0) (place i Tmm10) (place i cot)) [shape Hm0; shape Tmm10; shape cot] k.
  exists k. auto.
Qed.

(** The shape of the result is that of the factors and the Iribarren number. *)
Lemma reached_ksi sh gb (k : nums) : stretches (shape k) sh -> Forall (fun s => stretches s (shape k)) [shape Hm0; shape Tmm10; shape cot] ->
  reached sh [shape Hm0; shape Tmm10; gb; shape gamma_b; shape gamma_f; shape cot] -> reached sh [gb; shape gamma_b; shape gamma_f; shape k].
Proof.
  intros S F [->|R]; [left; reflexivity|]. right. args_tac. cbn [In] in *.
  assert (K : forall s, stretches s (shape k) -> s = sh -> shape k = sh) by (intros s K ->; apply stretches_antisym; auto).
  intuition (subst; eauto 10).
Qed.

Lemma reached_common args sh : common args sh -> reached sh (map shape args).
Proof.
  intros (_ & [->|E]); [left; reflexivity|]. right. apply Exists_exists in E as (a & I & <-). apply in_map. exact I.
Qed.

Lemma given_gives rec sh : filled gamma_beta -> common [Hm0; Tmm10; gamma_beta; gamma_b; gamma_f; cot] sh ->
  gives sh (array rec) (fun i => fst (pair i)) (fun i => snd (pair i)).
Proof.
  intros FB C. pose proof (reached_common _ _ C) as R. destruct C as (F & _). args_tac.
  destruct (ksi_name sh) as (k & Ek & Sk & Dk & Uk); try assumption.
  unfold array. rewrite (body_given _ _ _ _ _ _ _ _ _ _ _ _ _ _ _ _ _ x) by assumption.
  unfold pair, runup_pair. destruct (RunupTAW2002.best_fit_coefficients best c1 c2 c3 c4) as [[[d1 d2] d3] d4].
  pose proof (runup_core sh Hm0 Tmm10 gamma_beta gamma_b gamma_f cot k d1 d2 d3 d4 _ _ _ _ ltac:(assumption) ltac:(assumption) ltac:(assumption)
    ltac:(assumption) ltac:(assumption) ltac:(assumption) Sk (den_leaf sh gamma_beta ltac:(assumption)) (den_leaf sh gamma_b ltac:(assumption))
    (den_leaf sh gamma_f ltac:(assumption)) Dk) as G.
  destruct G as (r & m & E & Sr & Sm & V); [apply reached_ksi; auto|].
  exists r, m. split; [exact (steps _ _ k _ Ek E)|]. split; [auto|]. split; [auto|].
  intros i I. cbn [fst snd]. unfold oblique. rewrite (filled_place gamma_beta sh i) by assumption. apply V. exact I.
Qed.

Lemma given_raises rec : filled gamma_beta -> ~ compatible [Hm0; Tmm10; gamma_beta; gamma_b; gamma_f; cot] ->
  value (array rec) = Err ValueError.
Proof.
  intros FB N. unfold array. rewrite (body_given _ _ _ _ _ _ _ _ _ _ _ _ _ _ _ _ _ x) by assumption.
  destruct (RunupTAW2002.best_fit_coefficients best c1 c2 c3 c4) as [[[d1 d2] d3] d4]. apply tame_raises.
  - apply tame_bind; [autounfold with arrays; tame_tac|]. intros. apply tame_runup_core.
  - intros (r & m) E. apply N. apply step in E as (k & Ek & E). apply runup_core_uses in E as (sh & F). exists sh.
    assert (U : uses (ArrCore.calculate_Iribarren_number_ksi Hm0 Tmm10 cot) [shape Hm0; shape Tmm10; shape cot]).
    { autounfold with arrays. eapply uses_incl; [uses_tac|incl_tac]. }
    apply U in Ek. args_tac. repeat (constructor; [eauto using stretches_trans|]); constructor.
Qed.

Lemma angle_gives rec sh : missing gamma_beta -> filled beta -> common [Hm0; Tmm10; beta; gamma_b; gamma_f; cot] sh ->
  gives sh (array rec) (fun i => fst (pair i)) (fun i => snd (pair i)).
Proof.
  intros NB FB C. pose proof (reached_common _ _ C) as R. destruct C as (F & _). args_tac.
  destruct (ksi_name sh) as (k & Ek & Sk & Dk & Uk); try assumption.
  unfold array. rewrite (body_angle _ _ _ _ _ _ _ _ _ _ _ _ _ _ _ _ _ x) by assumption.
  unfold pair, runup_pair. destruct (RunupTAW2002.best_fit_coefficients best c1 c2 c3 c4) as [[[d1 d2] d3] d4].
  name sh (ArrRunupTAW2002.calculate_influence_oblique_waves_gamma_beta beta RunupTAW2002.c_gamma_beta_default RunupTAW2002.max_angle_default)
    (fun i => RunupTAW2002.calculate_influence_oblique_waves_gamma_beta (place i beta) RunupTAW2002.c_gamma_beta_default RunupTAW2002.max_angle_default)
    [shape beta] gb.
  pose proof (runup_core sh Hm0 Tmm10 gb gamma_b gamma_f cot k d1 d2 d3 d4 _ _ _ _ ltac:(assumption) ltac:(assumption) ltac:(assumption)
    Sgb ltac:(assumption) ltac:(assumption) Sk Dgb (den_leaf sh gamma_b ltac:(assumption))
    (den_leaf sh gamma_f ltac:(assumption)) Dk) as G.
  destruct G as (r & m & E & Sr & Sm & V).
  { apply reached_ksi; auto. destruct R as [->|R]; [left; reflexivity|]. right. args_tac. cbn [In map] in *.
    assert (K : shape beta = sh -> shape gb = sh) by (intros <-; apply stretches_antisym; auto). intuition. }
  exists r, m. split; [apply (steps _ _ gb _ Egb); exact (steps _ _ k _ Ek E)|]. split; [auto|]. split; [auto|].
  intros i I. cbn [fst snd]. unfold oblique. rewrite (missing_place gamma_beta i) by assumption. apply V. exact I.
Qed.

Lemma angle_raises rec : missing gamma_beta -> filled beta -> ~ compatible [Hm0; Tmm10; beta; gamma_b; gamma_f; cot] ->
  value (array rec) = Err ValueError.
Proof.
  intros NB FB N. unfold array. rewrite (body_angle _ _ _ _ _ _ _ _ _ _ _ _ _ _ _ _ _ x) by assumption.
  destruct (RunupTAW2002.best_fit_coefficients best c1 c2 c3 c4) as [[[d1 d2] d3] d4]. apply tame_raises.
  - apply tame_bind; [autounfold with arrays; tame_tac|]. intros. apply tame_bind; [autounfold with arrays; tame_tac|]. intros. apply tame_runup_core.
  - intros (r & m) E. apply N. apply step in E as (gb & Eg & E). apply step in E as (k & Ek & E). apply runup_core_uses in E as (sh & F). exists sh.
    assert (U : uses (ArrCore.calculate_Iribarren_number_ksi Hm0 Tmm10 cot) [shape Hm0; shape Tmm10; shape cot]).
    { autounfold with arrays. eapply uses_incl; [uses_tac|incl_tac]. }
    assert (U' : uses (ArrRunupTAW2002.calculate_influence_oblique_waves_gamma_beta beta RunupTAW2002.c_gamma_beta_default RunupTAW2002.max_angle_default) [shape beta]).
    { unfold float. autounfold with arrays. eapply uses_incl; [uses_tac|incl_tac]. }
    apply U in Ek. apply U' in Eg. args_tac. repeat (constructor; [eauto using stretches_trans|]); constructor.
Qed.
End Single.

(** At each place the scalar function gives the same. *)
Lemma scalar_given rec beta gamma_beta gamma_b cot down up sh i x Hm0 Tmm10 gamma_f B db c1 c2 c3 c4 best :
  filled cot -> missing down \/ missing up -> one_number gamma_b x -> isnan x = false ->
  filled gamma_beta \/ (missing gamma_beta /\ filled beta /\ stretches (shape beta) sh) ->
  stretches (shape gamma_beta) sh \/ missing gamma_beta -> stretches (shape gamma_b) sh -> stretches (shape cot) sh -> inside sh i ->
  value (RunupTAW2002.dimensionless_body rec (place i Hm0) (place i Tmm10) (place i beta) (place i gamma_beta) (place i gamma_b) (place i gamma_f)
           (place i B) (place i db) (place i cot) (place i down) (place i up) c1 c2 c3 c4 best)
  = Ok (runup_pair best (oblique (place i beta) (place i gamma_beta)) (place i gamma_b) (place i gamma_f)
          (CorePhysics.calculate_Iribarren_number_ksi (place i Hm0) (place i Tmm10) (place i cot)) c1 c2 c3 c4).
Proof.
  intros SC SN O X G Sg Sb Sc I. apply scalar_body.
  - destruct G as [G|(N & F & S)].
    + destruct Sg as [Sg|Sg]; [rewrite (filled_place _ _ _ G Sg I); apply andb_false_r|].
      exfalso. destruct G as (E & G). destruct (entries gamma_beta) as [|y l] eqn:L; [congruence|].
      inversion G; subst. unfold missing in Sg. rewrite L in Sg. inversion Sg; subst. congruence.
    + rewrite (filled_place _ _ _ F S I). reflexivity.
  - exact (filled_place _ _ _ SC Sc I).
  - destruct SN as [N|N]; rewrite (missing_place _ _ N); [reflexivity|apply orb_true_r].
  - rewrite (one_place _ _ _ _ O Sb I). exact X.
Qed.

Lemma runup_is rec Hm0 Tmm10 beta gamma_beta gamma_b gamma_f B db cot down up c1 c2 c3 c4 best i p :
  value (RunupTAW2002.dimensionless_body rec (place i Hm0) (place i Tmm10) (place i beta) (place i gamma_beta) (place i gamma_b) (place i gamma_f)
           (place i B) (place i db) (place i cot) (place i down) (place i up) c1 c2 c3 c4 best) = Ok p ->
  value (x <- RunupTAW2002.dimensionless_body rec (place i Hm0) (place i Tmm10) (place i beta) (place i gamma_beta) (place i gamma_b) (place i gamma_f)
           (place i B) (place i db) (place i cot) (place i down) (place i up) c1 c2 c3 c4 best ;;
         (let '(z, m) := x in ret ((z * place i Hm0)%num, m)))
  = Ok ((fst p * place i Hm0)%num, snd p).
Proof. intros E. rewrite value_bind, E. destruct p. reflexivity. Qed.

Lemma unroll n : ArrRunupTAW2002.calculate_wave_runup_height_z2p_upto (S n)
  = fun Hm0 Tmm10 beta gamma_beta gamma_b gamma_f B db cot down up c1 c2 c3 c4 best =>
      diml <- ArrRunupTAW2002.dimensionless_body (ArrRunupTAW2002.runup_upto n) Hm0 Tmm10 beta gamma_beta gamma_b gamma_f B db cot down up c1 c2 c3 c4 best ;;
      z2p <- (fst diml * Hm0)%arr ;; ret (z2p, snd diml).
Proof. reflexivity. Qed.
Lemma limit : RunupTAW2002.depth_limit = S 299.
Proof. reflexivity. Qed.

(** The dimensionless run-up, with the influence factor of oblique waves ... *)
Theorem C64_runup_diml : forall Hm0 Tmm10 beta gamma_beta gamma_b gamma_f B_berm db cot down up c1 c2 c3 c4 best x,
  filled gamma_beta -> filled cot -> missing down \/ missing up -> one_number gamma_b x -> isnan x = false ->
  flagged [Hm0; Tmm10; gamma_beta; gamma_b; gamma_f; cot]
    (ArrRunupTAW2002.calculate_dimensionless_wave_runup_height_z2p Hm0 Tmm10 beta gamma_beta gamma_b gamma_f B_berm db cot down up c1 c2 c3 c4 best)
    (fun at_ => value (RunupTAW2002.calculate_dimensionless_wave_runup_height_z2p (at_ Hm0) (at_ Tmm10) (at_ beta) (at_ gamma_beta) (at_ gamma_b)
       (at_ gamma_f) (at_ B_berm) (at_ db) (at_ cot) (at_ down) (at_ up) c1 c2 c3 c4 best)).
Proof.
  intros * FB SC SN O X. split; [|apply given_raises with x; auto].
  intros sh C. eapply gives_answers; [apply given_gives with x; auto; exact C|].
  intros i I. destruct C as (F & _). args_tac. rewrite <- surjective_pairing. apply (scalar_given _ _ _ _ _ _ _ sh i x); auto.
Qed.

(** ... or with the angle of the waves *)
Theorem C64_runup_diml_angle : forall Hm0 Tmm10 beta gamma_beta gamma_b gamma_f B_berm db cot down up c1 c2 c3 c4 best x,
  missing gamma_beta -> filled beta -> filled cot -> missing down \/ missing up -> one_number gamma_b x -> isnan x = false ->
  flagged [Hm0; Tmm10; beta; gamma_b; gamma_f; cot]
    (ArrRunupTAW2002.calculate_dimensionless_wave_runup_height_z2p Hm0 Tmm10 beta gamma_beta gamma_b gamma_f B_berm db cot down up c1 c2 c3 c4 best)
    (fun at_ => value (RunupTAW2002.calculate_dimensionless_wave_runup_height_z2p (at_ Hm0) (at_ Tmm10) (at_ beta) (at_ gamma_beta) (at_ gamma_b)
       (at_ gamma_f) (at_ B_berm) (at_ db) (at_ cot) (at_ down) (at_ up) c1 c2 c3 c4 best)).
Proof.
  intros * NB FB SC SN O X. split; [|apply angle_raises with x; auto].
  intros sh C. eapply gives_answers; [apply angle_gives with x; auto; exact C|].
  intros i I. destruct C as (F & _). args_tac. rewrite <- surjective_pairing. apply (scalar_given _ _ _ _ _ _ _ sh i x); auto.
Qed.

Theorem C64_runup : forall Hm0 Tmm10 beta gamma_beta gamma_b gamma_f B_berm db cot down up c1 c2 c3 c4 best x,
  filled gamma_beta -> filled cot -> missing down \/ missing up -> one_number gamma_b x -> isnan x = false ->
  flagged [Hm0; Tmm10; gamma_beta; gamma_b; gamma_f; cot]
    (ArrRunupTAW2002.calculate_wave_runup_height_z2p Hm0 Tmm10 beta gamma_beta gamma_b gamma_f B_berm db cot down up c1 c2 c3 c4 best)
    (fun at_ => value (RunupTAW2002.calculate_wave_runup_height_z2p (at_ Hm0) (at_ Tmm10) (at_ beta) (at_ gamma_beta) (at_ gamma_b)
       (at_ gamma_f) (at_ B_berm) (at_ db) (at_ cot) (at_ down) (at_ up) c1 c2 c3 c4 best)).
Proof.
  intros * FB SC SN O X. unfold ArrRunupTAW2002.calculate_wave_runup_height_z2p, RunupTAW2002.calculate_wave_runup_height_z2p.
  rewrite limit, unroll. split.
  - intros sh C. eapply gives_answers; [eapply gives_times; [apply given_gives with x; auto; exact C|]|].
    + apply den_leaf. destruct C as (F & _). args_tac. assumption.
    + intros i I. destruct C as (F & _). args_tac. cbv beta. apply runup_is. apply (scalar_given _ _ _ _ _ _ _ sh i x); auto.
  - intros N. apply stops_first. apply given_raises with x; auto.
Qed.

Theorem C64_runup_angle : forall Hm0 Tmm10 beta gamma_beta gamma_b gamma_f B_berm db cot down up c1 c2 c3 c4 best x,
  missing gamma_beta -> filled beta -> filled cot -> missing down \/ missing up -> one_number gamma_b x -> isnan x = false ->
  flagged [Hm0; Tmm10; beta; gamma_b; gamma_f; cot]
    (ArrRunupTAW2002.calculate_wave_runup_height_z2p Hm0 Tmm10 beta gamma_beta gamma_b gamma_f B_berm db cot down up c1 c2 c3 c4 best)
    (fun at_ => value (RunupTAW2002.calculate_wave_runup_height_z2p (at_ Hm0) (at_ Tmm10) (at_ beta) (at_ gamma_beta) (at_ gamma_b)
       (at_ gamma_f) (at_ B_berm) (at_ db) (at_ cot) (at_ down) (at_ up) c1 c2 c3 c4 best)).
Proof.
  intros * NB FB SC SN O X. unfold ArrRunupTAW2002.calculate_wave_runup_height_z2p, RunupTAW2002.calculate_wave_runup_height_z2p.
  rewrite limit, unroll. split.
  - intros sh C. eapply gives_answers; [eapply gives_times; [apply angle_gives with x; auto; exact C|]|].
    + apply den_leaf. destruct C as (F & _). args_tac. assumption.
    + intros i I. destruct C as (F & _). args_tac. cbv beta. apply runup_is. apply (scalar_given _ _ _ _ _ _ _ sh i x); auto.
  - intros N. apply stops_first. apply angle_raises with x; auto.
Qed.

(** ** Where it does not work *)

Lemma body_several rec Hm0 Tmm10 beta gamma_beta gamma_b gamma_f B_berm db cot down up c1 c2 c3 c4 best n :
  missing down \/ missing up -> shape gamma_b = Some n -> n <> 1 ->
  stops (ArrRunupTAW2002.dimensionless_body rec Hm0 Tmm10 beta gamma_beta gamma_b gamma_f B_berm db cot down up c1 c2 c3 c4 best).
Proof.
  intros SN E N. unfold ArrRunupTAW2002.dimensionless_body.
  destruct (RunupTAW2002.best_fit_coefficients best c1 c2 c3 c4) as [[[d1 d2] d3] d4].
  apply stops_then; [apply tame_check_calculate|]. intros cb _.
  apply stops_then; [destruct cb; [autounfold with arrays|]; tame_tac|]. intros gb _.
  destruct (not_composite cot down up SN) as [K|K]; rewrite K; [|reflexivity]. rewrite bind_ret_l.
  apply stops_then; [tame_tac|]. intros c _. apply stops_then; [autounfold with arrays; tame_tac|]. intros k _.
  apply stops_first. exact (several_given gamma_b n E N).
Qed.

(** The influence factor of the berm is one number: an array with several entries is a
    ValueError. *)
Theorem C64_runup_berm_factor : forall Hm0 Tmm10 beta gamma_beta gamma_b gamma_f B_berm db cot down up c1 c2 c3 c4 best n,
  missing down \/ missing up -> shape gamma_b = Some n -> n <> 1 ->
  value (ArrRunupTAW2002.calculate_wave_runup_height_z2p Hm0 Tmm10 beta gamma_beta gamma_b gamma_f B_berm db cot down up c1 c2 c3 c4 best) = Err ValueError
  /\ value (ArrRunupTAW2002.calculate_dimensionless_wave_runup_height_z2p Hm0 Tmm10 beta gamma_beta gamma_b gamma_f B_berm db cot down up c1 c2 c3 c4 best) = Err ValueError.
Proof.
  intros * SN E N. split; [|apply body_several with n; auto].
  unfold ArrRunupTAW2002.calculate_wave_runup_height_z2p. rewrite limit, unroll. apply stops_first. apply body_several with n; auto.
Qed.

Lemma body_composite rec Hm0 Tmm10 beta gamma_beta gamma_b gamma_f B_berm db cot down up c1 c2 c3 c4 best :
  filled down -> filled up -> Forall finite (entries Hm0) -> Exists is_array [Hm0; db; B_berm; down; up] ->
  stops (ArrRunupTAW2002.dimensionless_body rec Hm0 Tmm10 beta gamma_beta gamma_b gamma_f B_berm db cot down up c1 c2 c3 c4 best).
Proof.
  intros FD FU FH X. unfold ArrRunupTAW2002.dimensionless_body.
  destruct (RunupTAW2002.best_fit_coefficients best c1 c2 c3 c4) as [[[d1 d2] d3] d4].
  apply stops_then; [apply tame_check_calculate|]. intros cb _.
  apply stops_then; [destruct cb; [autounfold with arrays|]; tame_tac|]. intros gb _.
  rewrite (composite_slope _ _ _ FD FU), bind_ret_l. apply stops_first, stops_first.
  apply search_arrays; auto. lra.
Qed.

(** A composite slope does not go with arrays: as soon as the wave height, the berm or one
    of the slopes is an array, even with one entry, it is a ValueError. *)
Theorem C64_runup_composite : forall Hm0 Tmm10 beta gamma_beta gamma_b gamma_f B_berm db cot down up c1 c2 c3 c4 best,
  filled down -> filled up -> all_finite Hm0 ->
  Exists is_array [Hm0; db; B_berm; down; up] ->
  value (ArrRunupTAW2002.calculate_wave_runup_height_z2p Hm0 Tmm10 beta gamma_beta gamma_b gamma_f B_berm db cot down up c1 c2 c3 c4 best) = Err ValueError
  /\ value (ArrRunupTAW2002.calculate_dimensionless_wave_runup_height_z2p Hm0 Tmm10 beta gamma_beta gamma_b gamma_f B_berm db cot down up c1 c2 c3 c4 best) = Err ValueError.
Proof.
  intros * FD FU FH X. split; [|apply body_composite; auto].
  unfold ArrRunupTAW2002.calculate_wave_runup_height_z2p. rewrite limit, unroll. apply stops_first. apply body_composite; auto.
Qed.

(** The influence factor of a berm takes no arrays. *)
Theorem C64_berm_factor : forall Hm0 z2p db B_berm L_berm, Exists is_array [Hm0; z2p; db; B_berm; L_berm] ->
  value (ArrRunupTAW2002.calculate_influence_berm_gamma_b Hm0 z2p db B_berm L_berm) = Err ValueError.
Proof. intros. apply berm_arrays. auto. Qed.

(** Without an influence factor of the berm a single slope is a ValueError, with arrays as
    with numbers: the slope is not passed on to the length of the berm. *)
Theorem C64_runup_no_berm_factor : forall Hm0 Tmm10 beta gamma_beta gamma_b gamma_f B_berm db cot down up c1 c2 c3 c4 best x,
  missing down -> one_number gamma_b x -> isnan x = true ->
  value (ArrRunupTAW2002.calculate_wave_runup_height_z2p Hm0 Tmm10 beta gamma_beta gamma_b gamma_f B_berm db cot down up c1 c2 c3 c4 best) = Err ValueError
  /\ value (ArrRunupTAW2002.calculate_dimensionless_wave_runup_height_z2p Hm0 Tmm10 beta gamma_beta gamma_b gamma_f B_berm db cot down up c1 c2 c3 c4 best) = Err ValueError.
Proof.
  intros * N O X.
  assert (K : forall rec, stops (ArrRunupTAW2002.dimensionless_body rec Hm0 Tmm10 beta gamma_beta gamma_b gamma_f B_berm db cot down up c1 c2 c3 c4 best)).
  { intros rec. unfold ArrRunupTAW2002.dimensionless_body.
    destruct (RunupTAW2002.best_fit_coefficients best c1 c2 c3 c4) as [[[d1 d2] d3] d4].
    apply stops_then; [apply tame_check_calculate|]. intros cb _.
    apply stops_then; [destruct cb; [autounfold with arrays|]; tame_tac|]. intros gb _.
    destruct (not_composite cot down up (or_introl N)) as [K|K]; rewrite K; [|reflexivity]. rewrite bind_ret_l.
    apply stops_then; [tame_tac|]. intros c _. apply stops_then; [autounfold with arrays; tame_tac|]. intros k _.
    rewrite (one_given _ _ O), X, bind_ret_l. apply stops_first, stops_first.
    unfold ArrRunupTAW2002.calculate_berm_length. apply stops_first. unfold ArrRunupTAW2002.check_composite_slope.
    rewrite (missing_all _ N). reflexivity. }
  split; [|apply K]. unfold ArrRunupTAW2002.calculate_wave_runup_height_z2p. rewrite limit, unroll. apply stops_first, K.
Qed.

(** ** Examples *)
Open Scope arr_scope.
Definition coefs {A} (f : num -> num -> num -> num -> A) : A :=
  f RunupTAW2002.c1_default RunupTAW2002.c2_default RunupTAW2002.c3_default RunupTAW2002.c4_default.
Ltac fill := split; [discriminate|repeat (constructor; [reflexivity|]); constructor].
Ltac missed := unfold missing; repeat (constructor; [reflexivity|]); constructor.

(** Two wave heights on one slope: two run-up heights *)
Example C64_runup_example :
  exists r m, value (coefs (ArrRunupTAW2002.calculate_wave_runup_height_z2p (Ar [#1; #2]%num) #8 #0 #1 #1 #1 #0 #0 #3 anan anan) false) = Ok (r, m)
  /\ shape r = Some 2 /\ shape m = Some 2
  /\ exists b, at_ m 1 = Some b
     /\ value (coefs (RunupTAW2002.calculate_wave_runup_height_z2p #2 #8 #0 #1 #1 #1 #0 #0 #3 NaN NaN)%num false) = Ok (place 1 r, b).
Proof.
  assert (C : common [Ar [#1; #2]%num; lit 8%R; lit 1%R; lit 1%R; lit 1%R; lit 3%R] (Some 2)).
  { split; [repeat (constructor; [solve [unfold stretches; cbn; auto 6]|]); constructor|]. right. apply Exists_cons_hd. reflexivity. }
  unfold coefs.
  destruct (C64_runup (Ar [#1; #2]%num) (lit 8) (lit 0) (lit 1) (lit 1) (lit 1) (lit 0) (lit 0) (lit 3) anan anan
    RunupTAW2002.c1_default RunupTAW2002.c2_default RunupTAW2002.c3_default RunupTAW2002.c4_default false #1%num)
    as (H & _); [fill|fill|left; missed|reflexivity|reflexivity|].
  destruct (H _ C) as (r & m & E & Sr & Sm & P). exists r, m. split; [exact E|]. split; [exact Sr|]. split; [exact Sm|].
  destruct (P 1) as (b & Eb & V); [cbn; lia|]. exists b. split; [exact Eb|exact V].
Qed.

(** With a composite slope the same two wave heights are an error. *)
Example C64_runup_composite_example :
  value (coefs (ArrRunupTAW2002.calculate_wave_runup_height_z2p (Ar [#1; #2]%num) #8 #0 #1 #1 #1 #5 #0 anan #3 #4) false) = Err ValueError.
Proof.
  apply C64_runup_composite; [fill|fill|repeat constructor; eexists; reflexivity|]. apply Exists_cons_hd. discriminate.
Qed.

Example C64_runup_berm_example :
  value (coefs (ArrRunupTAW2002.calculate_wave_runup_height_z2p #1 #8 #0 #1 (Ar [#1; #0.9]%num) #1 #0 #0 #3 anan anan) false) = Err ValueError
  /\ value (coefs (ArrRunupTAW2002.calculate_wave_runup_height_z2p (Ar [#1; #2]%num) #8 #0 #1 anan #1 #0 #0 #3 anan anan) false) = Err ValueError.
Proof.
  split.
  - apply C64_runup_berm_factor with 2; [left; missed|reflexivity|discriminate].
  - apply C64_runup_no_berm_factor with NaN; [missed|reflexivity|reflexivity].
Qed.
