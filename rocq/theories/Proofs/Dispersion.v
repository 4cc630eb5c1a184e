(** The dispersion relation has exactly one positive wave number, so routines
    that solve it exist and agree with each other. *)
From Coq Require Import Reals Lra.
From Verif.Lib Require Import Num Monad RTac NTac.
From Verif.Spec Require Import Dispersion.
From Verif.Model Require Import CorePhysics.
Open Scope R_scope.

(** What is assumed of disper: on positive arguments it returns a positive
    wave number. *)
Definition yields_wave_number (disper : num -> num -> num -> num) : Prop :=
  forall w h g, 0 < w -> 0 < h -> 0 < g ->
    exists k, 0 < k /\ disper (Fin w) (Fin h) (Fin g) = Fin k.

(** ... and, where needed, that it solves the dispersion relation. *)
Definition solves_dispersion (disper : num -> num -> num -> num) : Prop :=
  forall w h g, 0 < w -> 0 < h -> 0 < g ->
    exists k, 0 < k /\ disper (Fin w) (Fin h) (Fin g) = Fin k /\ dispersion w h g k.

Lemma solves_yields d : solves_dispersion d -> yields_wave_number d.
Proof. intros H w h g ? ? ?. destruct (H w h g) as (k & ? & ? & _); eauto. Qed.

Lemma sinh_pos x : 0 < x -> 0 < sinh x.
Proof. intros. unfold sinh. assert (exp (- x) < exp x) by (apply exp_increasing; lra). lra. Qed.
Lemma cosh_pos x : 0 < cosh x.
Proof. unfold cosh. pose proof (exp_pos x). pose proof (exp_pos (- x)). lra. Qed.
Lemma tanh_pos x : 0 < x -> 0 < tanh x.
Proof. intros. unfold tanh. apply Rdiv_lt_0_compat; [apply sinh_pos; assumption|apply cosh_pos]. Qed.
Lemma tanh_alt x : tanh x = 1 - 2 / (exp (2 * x) + 1).
Proof.
  unfold tanh, sinh, cosh. pose proof (exp_pos x).
  replace (2 * x) with (x + x) by ring. rewrite exp_plus, exp_Ropp. pose proof (Rmult_lt_0_compat _ _ H H).
  assert (0 < / exp x) by (apply Rinv_0_lt_compat; assumption).
  field. repeat split; nra.
Qed.
Lemma tanh_lt x y : x < y -> tanh x < tanh y.
Proof.
  intros. rewrite !tanh_alt.
  assert (exp (2 * x) < exp (2 * y)) by (apply exp_increasing; lra).
  pose proof (exp_pos (2 * x)).
  assert (2 / (exp (2 * y) + 1) < 2 / (exp (2 * x) + 1)); [|lra].
  apply Rmult_lt_compat_l; [lra|]. apply Rinv_lt_contravar; [|lra]. nra.
Qed.
Lemma tanh_lt_1 x : tanh x < 1.
Proof.
  rewrite tanh_alt. pose proof (exp_pos (2 * x)).
  assert (0 < 2 / (exp (2 * x) + 1)) by (apply Rdiv_lt_0_compat; lra). lra.
Qed.

Lemma dispersion_unique w h g k k' : 0 < h -> 0 < g -> 0 < k -> 0 < k' ->
  dispersion w h g k -> dispersion w h g k' -> k = k'.
Proof.
  assert (G : forall k k', 0 < h -> 0 < g -> 0 < k -> k < k' ->
              g * k * tanh (k * h) < g * k' * tanh (k' * h)).
  { intros. assert (tanh (k0 * h) < tanh (k'0 * h)) by (apply tanh_lt; nra).
    assert (0 < tanh (k0 * h)) by (apply tanh_pos; rpos).
    apply Rmult_gt_0_lt_compat; try lra; try (apply Rmult_lt_compat_l; lra).
    assert (0 < g * k'0) by (apply Rmult_lt_0_compat; lra). lra. }
  unfold dispersion. intros Hh Hg Hk Hk' E E'. rewrite E in E'.
  destruct (Rtotal_order k k') as [L|[->|L]]; [|reflexivity|].
  - pose proof (G k k' Hh Hg Hk L). lra.
  - pose proof (G k' k Hh Hg Hk' L). lra.
Qed.

Lemma tanh_continuous : continuity tanh.
Proof.
  unfold tanh. apply (continuity_div sinh cosh).
  - apply derivable_continuous, derivable_sinh.
  - apply derivable_continuous, derivable_cosh.
  - intros x. apply Rgt_not_eq, cosh_pos.
Qed.

Definition wave_number (w h g : R) : 0 < w -> 0 < h -> 0 < g ->
  { k | 0 < k /\ dispersion w h g k }.
Proof.
  intros Hw Hh Hg.
  set (f := fun k => g * k * tanh (k * h) - w ^ 2).
  assert (Ht : 0 < tanh 1) by (apply tanh_pos; lra).
  set (y := 1 / h + w ^ 2 / (g * tanh 1)).
  assert (0 < 1 / h) by rpos. assert (0 < w ^ 2 / (g * tanh 1)) by rpos.
  assert (Hy : 0 < y) by (unfold y; lra).
  destruct (IVT f 0 y) as (k & (Hk & _) & Ek).
  - unfold f. apply (continuity_minus (fun k => g * k * tanh (k * h)) (fun _ => w ^ 2)).
    + apply (continuity_mult (fun k => g * k) (fun k => tanh (k * h))).
      * apply (continuity_mult (fun _ => g) id); [apply continuity_const; red; reflexivity|].
        apply derivable_continuous, derivable_id.
      * apply (continuity_comp (fun k => k * h) tanh); [|apply tanh_continuous].
        apply (continuity_mult id (fun _ => h)); [apply derivable_continuous, derivable_id|].
        apply continuity_const; red; reflexivity.
    + apply continuity_const; red; reflexivity.
  - assumption.
  - unfold f. assert (0 < w ^ 2) by rpos. rewrite Rmult_0_r, Rmult_0_l. lra.
  - unfold f.
    assert (tanh 1 < tanh (y * h)).
    { apply tanh_lt. unfold y. rewrite Rmult_plus_distr_r.
      replace (1 / h * h) with 1 by (field; lra).
      assert (0 < w ^ 2 / (g * tanh 1) * h) by rpos. lra. }
    assert (w ^ 2 < g * y * tanh 1).
    { unfold y. rewrite Rmult_plus_distr_l, Rmult_plus_distr_r.
      replace (g * (w ^ 2 / (g * tanh 1)) * tanh 1) with (w ^ 2) by (field; split; lra).
      assert (0 < g * (1 / h) * tanh 1) by rpos. lra. }
    assert (0 < g * y) by rpos. nra.
  - exists k. unfold f in Ek. split.
    + destruct Hk as [Hk|Hk]; [assumption|exfalso]. subst k.
      rewrite Rmult_0_r, Rmult_0_l in Ek. assert (0 < w ^ 2) by rpos. lra.
    + unfold dispersion. lra.
Qed.

(** A routine that solves the dispersion relation exactly; used to show that
    the hypotheses above can be met. *)
Definition exact_disper (w h g : num) : num :=
  match w, h, g with
  | Fin w, Fin h, Fin g =>
      match Rlt_dec 0 w, Rlt_dec 0 h, Rlt_dec 0 g with
      | left Hw, left Hh, left Hg => Fin (proj1_sig (wave_number w h g Hw Hh Hg))
      | _, _, _ => NaN
      end
  | _, _, _ => NaN
  end.
Lemma exact_disper_solves : solves_dispersion exact_disper.
Proof.
  intros w h g Hw Hh Hg. unfold exact_disper.
  destruct (Rlt_dec 0 w) as [a|]; [|contradiction].
  destruct (Rlt_dec 0 h) as [b|]; [|contradiction].
  destruct (Rlt_dec 0 g) as [c|]; [|contradiction].
  destruct (wave_number w h g a b c) as (k & Hk & D). simpl. eauto.
Qed.

Lemma local_wavelength_fin d T h g : yields_wave_number d -> 0 < T -> 0 < h -> 0 < g ->
  exists k, 0 < k /\ d (Fin (2 * PI / T)) (Fin h) (Fin g) = Fin k
    /\ local_wavelength d (Fin T) (Fin h) (Fin g) = Fin (2 * PI / k).
Proof.
  intros H HT Hh Hg. destruct (H (2 * PI / T) h g) as (k & Hk & E); [rpos|assumption..|].
  exists k. repeat split; try assumption. unfold local_wavelength, two_pi. nfin. rewrite E. nfin. reflexivity.
Qed.
