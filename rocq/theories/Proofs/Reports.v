From Coq Require Import Reals Lra List Bool String.
From Verif.Lib Require Import Num Monad RTac NTac.
From Verif.Spec Require Import Ranges Reports.
From Verif.Model Require Import CoreUtility CorePhysics.
From Verif.Proofs Require Import Core CheckTac Warns.
Import ListNotations.
Open Scope R_scope.

Lemma below_nlt x y : nlt x y = true <-> below x y.
Proof. destruct x, y; cbn; rewrite ?Rltb_iff; split; intros; try discriminate; try tauto. Qed.

Lemma out_iff v lo hi : (nlt v lo || ngt v hi)%bool = true <-> out_of_range v lo hi.
Proof. unfold out_of_range, ngt. rewrite orb_true_iff, !below_nlt. tauto. Qed.

Lemma nan_in lo hi : ~ out_of_range NaN lo hi.
Proof. unfold out_of_range, below. destruct hi; tauto. Qed.

Lemma reported_check {A} n f v lo hi rs (k : M A) :
  reported rs (warns k) -> reported (XRange n f v lo hi :: rs) (warns (check n f v lo hi ;; k)).
Proof.
  intros H. rewrite check_seq. destruct (nlt v lo || ngt v hi)%bool eqn:E; cbn [app].
  - apply reported_out; [apply out_iff; assumption|assumption].
  - apply reported_in; [rewrite <- out_iff, E; discriminate|assumption].
Qed.

(** The usual guard: the check is left out only if the value is missing. *)
Lemma reported_when {A} c n f v lo hi rs (k : M A) :
  (c = false -> v = NaN) -> reported rs (warns k) ->
  reported (XRange n f v lo hi :: rs) (warns (when c (check n f v lo hi) ;; k)).
Proof.
  intros Hc H. destruct c; [apply reported_check; assumption|].
  rewrite (Hc eq_refl). cbn [when]. rewrite bind_ret_l. apply reported_in; [apply nan_in|assumption].
Qed.

Lemma reported_ret {A} (a : A) : reported [] (warns (ret a)).
Proof. constructor. Qed.

Lemma provided_false x : provided x = false -> x = NaN.
Proof. destruct x; cbn; congruence. Qed.

Lemma reported_none rs ws : reported rs ws ->
  (ws = [] <-> Forall (fun r => ~ out_of_range (x_value r) (x_lo r) (x_hi r)) rs).
Proof.
  induction 1 as [|? ? ? ? ? ? ? H _ IH|? ? ? ? ? ? ? H _ IH].
  - split; constructor.
  - rewrite IH. split; [intros; constructor; assumption|]. intros F. inversion F; assumption.
  - split; [discriminate|]. intros F. inversion F as [|? ? F1 _]; subst. cbn in F1. tauto.
Qed.

(** Derived quantities are missing with any of their arguments. *)
Lemma steepness_nan_H T g : calculate_wave_steepness_s NaN T g = NaN.
Proof. unfold calculate_wave_steepness_s. rewrite nmul_nan_r. apply ndiv_nan_l. Qed.
Lemma steepness_nan_T H g : calculate_wave_steepness_s H NaN g = NaN.
Proof. unfold calculate_wave_steepness_s. rewrite npow_nan_l by lra. apply ndiv_nan_r. Qed.
Lemma iribarren_nan_H T c : calculate_Iribarren_number_ksi NaN T c = NaN.
Proof. unfold calculate_Iribarren_number_ksi. rewrite steepness_nan_H. cbv zeta. rewrite nsqrt_nan. apply ndiv_nan_r. Qed.
Lemma iribarren_nan_T H c : calculate_Iribarren_number_ksi H NaN c = NaN.
Proof. unfold calculate_Iribarren_number_ksi. rewrite steepness_nan_T. cbv zeta. rewrite nsqrt_nan. apply ndiv_nan_r. Qed.
Lemma iribarren_nan_c H T : calculate_Iribarren_number_ksi H T NaN = NaN.
Proof. unfold calculate_Iribarren_number_ksi. cbv zeta. rewrite ndiv_nan_r. apply ndiv_nan_l. Qed.
#[global] Hint Rewrite steepness_nan_H steepness_nan_T iribarren_nan_H iribarren_nan_T iribarren_nan_c : missing.

(** Guards are conjunctions of [provided]; the value then vanishes with any of
    its arguments. *)
Ltac nan_guard :=
  let H := fresh in
  intros H; repeat match type of H with
  | andb _ _ = false => apply andb_false_iff in H as [H|H]
  | provided _ = false => apply provided_false in H; rewrite H
  end; try discriminate H; autorewrite with missing; nnan; try reflexivity.
Ltac reports :=
  repeat (rewrite ?bind_assoc, ?bind_ret_l; first
    [ apply reported_when; [nan_guard|]
    | apply reported_check
    | apply reported_ret ]).

Lemma reported_unit rs (m : M unit) : reported rs (warns (m ;; ret tt)) -> reported rs (warns m).
Proof. rewrite bind_ret_r. auto. Qed.

Lemma reports_checked ranges (c : M unit) x : value c = Ok tt -> reported (ranges x) (warns c) ->
  reports_of (c ;; ret x) ranges.
Proof.
  intros V R. exists x. split; [rewrite value_bind, V; reflexivity|].
  rewrite warns_bind, V. cbn. rewrite app_nil_r. exact R.
Qed.
