(** Property C57: structure-induced set-up, Van Gent (2024). *)
From Coq Require Import Reals Lra List Bool String.
From Verif.Lib Require Import Num Monad RTac NTac.
From Verif.Spec Require Import Waves Ranges Transmission.
From Verif.Model Require Import CoreUtility CorePhysics VanGent2024Setup.
From Verif.Proofs Require Import Core CheckTac Warns.
Import ListNotations.
Open Scope R_scope.

Lemma checks_su a b c d e f s : value (check_validity_range a b c d e f s) = Ok tt.
Proof.
  unfold check_validity_range. destruct s; mchecks; [|reflexivity].
  destruct (provided a && provided e), (provided a && provided f); reflexivity.
Qed.

Notation imp := calculate_structure_induced_setup_delta_impermeable.
Notation per := calculate_structure_induced_setup_delta_permeable.

(** In metres: the published relative set-up times the wave height, defined
    from 1.6 (impermeable) and 1.5 (permeable) wave heights of submergence. *)
Theorem C57_impermeable_formula : forall H T Rc, 0 < H -> 0 < T -> - (1.6) * H < Rc ->
  value (calculate_dimensionless_structure_induced_setup_impermeable (Fin H) (Fin T) (Fin Rc))
    = Ok (Fin (setup_impermeable (steepness g0 H T) H Rc)) /\
  value (imp (Fin H) (Fin T) (Fin Rc)) = Ok (Fin (setup_impermeable (steepness g0 H T) H Rc * H)).
Proof.
  intros H T Rc HH HT HR.
  assert (Hr : 0 < Rc / H + 1.6).
  { apply Rmult_lt_reg_r with H; [assumption|]. replace ((Rc / H + 1.6) * H) with (Rc + 1.6 * H) by (field; lra). lra. }
  pose proof (steepness_pos g0 H T g0_pos HH HT).
  assert (E : value (calculate_dimensionless_structure_induced_setup_impermeable (Fin H) (Fin T) (Fin Rc))
    = Ok (Fin (setup_impermeable (steepness g0 H T) H Rc))).
  { unfold calculate_dimensionless_structure_induced_setup_impermeable, g_default. fold g0. cbv zeta.
    rewrite steepness_fin by auto. nfin. mval. rewrite checks_su. reflexivity. }
  split; [exact E|]. unfold imp. mval. rewrite E. mval. nfin. reflexivity.
Qed.

Theorem C57_permeable_formula : forall H T Rc hc, 0 < H -> 0 < T -> 0 < hc -> - (1.5) * H < Rc ->
  value (calculate_dimensionless_structure_induced_setup_permeable (Fin H) (Fin T) (Fin Rc) (Fin hc))
    = Ok (Fin (setup_permeable (steepness g0 H T) H Rc hc)) /\
  value (per (Fin H) (Fin T) (Fin Rc) (Fin hc)) = Ok (Fin (setup_permeable (steepness g0 H T) H Rc hc * H)).
Proof.
  intros H T Rc hc HH HT Hh HR.
  assert (Hr : 0 < Rc / H + 1.5).
  { apply Rmult_lt_reg_r with H; [assumption|]. replace ((Rc / H + 1.5) * H) with (Rc + 1.5 * H) by (field; lra). lra. }
  pose proof (steepness_pos g0 H T g0_pos HH HT).
  assert (E : value (calculate_dimensionless_structure_induced_setup_permeable (Fin H) (Fin T) (Fin Rc) (Fin hc))
    = Ok (Fin (setup_permeable (steepness g0 H T) H Rc hc))).
  { unfold calculate_dimensionless_structure_induced_setup_permeable, g_default. fold g0. cbv zeta.
    rewrite steepness_fin by auto. nfin. mval. rewrite checks_su. reflexivity. }
  split; [exact E|]. unfold per. mval. rewrite E. mval. nfin. reflexivity.
Qed.

(** A positive set-up that grows with the crest level. *)
Theorem C57_impermeable_positive_increasing : forall H T Rc1 Rc2, 0 < H -> 0 < T -> - (1.6) * H < Rc1 -> Rc1 < Rc2 ->
  exists d1 d2, value (imp (Fin H) (Fin T) (Fin Rc1)) = Ok (Fin d1)
  /\ value (imp (Fin H) (Fin T) (Fin Rc2)) = Ok (Fin d2) /\ 0 < d1 < d2.
Proof.
  intros H T Rc1 Rc2 HH HT HR HR'. eexists. eexists.
  split; [apply C57_impermeable_formula; assumption|]. split; [apply C57_impermeable_formula; lra|].
  pose proof (steepness_pos g0 H T g0_pos HH HT).
  assert (Hr : 0 < Rc1 / H + 1.6).
  { apply Rmult_lt_reg_r with H; [assumption|]. replace ((Rc1 / H + 1.6) * H) with (Rc1 + 1.6 * H) by (field; lra). lra. }
  assert (Rc1 / H < Rc2 / H) by (apply Rmult_lt_compat_r; [rpos|assumption]).
  unfold setup_impermeable. pose proof (Rpower_pos (steepness g0 H T) 0.4).
  assert (0 < Rpower (Rc1 / H + 1.6) 3.5) by apply Rpower_pos.
  assert (Rpower (Rc1 / H + 1.6) 3.5 < Rpower (Rc2 / H + 1.6) 3.5) by (apply Rpower_lt_base; lra).
  split; [rpos|]. apply Rmult_lt_compat_r; [assumption|]. apply Rmult_lt_compat_l; [rpos|assumption].
Qed.

Theorem C57_permeable_positive_increasing : forall H T Rc1 Rc2 hc, 0 < H -> 0 < T -> 0 < hc ->
  - (1.5) * H < Rc1 -> Rc1 < Rc2 ->
  exists d1 d2, value (per (Fin H) (Fin T) (Fin Rc1) (Fin hc)) = Ok (Fin d1)
  /\ value (per (Fin H) (Fin T) (Fin Rc2) (Fin hc)) = Ok (Fin d2) /\ 0 < d1 < d2.
Proof.
  intros H T Rc1 Rc2 hc HH HT Hh HR HR'. eexists. eexists.
  split; [apply C57_permeable_formula; assumption|]. split; [apply C57_permeable_formula; lra|].
  pose proof (steepness_pos g0 H T g0_pos HH HT).
  assert (Hr : 0 < Rc1 / H + 1.5).
  { apply Rmult_lt_reg_r with H; [assumption|]. replace ((Rc1 / H + 1.5) * H) with (Rc1 + 1.5 * H) by (field; lra). lra. }
  assert (Rc1 / H < Rc2 / H) by (apply Rmult_lt_compat_r; [rpos|assumption]).
  unfold setup_permeable. pose proof (Rpower_pos (steepness g0 H T) 0.2). pose proof (Rpower_pos (hc / H) (-(0.7))).
  assert (0 < Rpower (Rc1 / H + 1.5) 1.5) by apply Rpower_pos.
  assert (Rpower (Rc1 / H + 1.5) 1.5 < Rpower (Rc2 / H + 1.5) 1.5) by (apply Rpower_lt_base; lra).
  split; [rpos|]. apply Rmult_lt_compat_r; [assumption|]. apply Rmult_lt_compat_l; [rpos|assumption].
Qed.

(** At the limiting submergence the set-up vanishes; below it the result is not
    a number, and the only sign of that is the warning about the freeboard. *)
Theorem C57_vanishes_at_the_limit : forall H T hc, 0 < H -> 0 < T -> 0 < hc ->
  value (imp (Fin H) (Fin T) (Fin (-(1.6) * H))) = Ok (Fin 0) /\
  value (per (Fin H) (Fin T) (Fin (-(1.5) * H)) (Fin hc)) = Ok (Fin 0).
Proof.
  intros H T hc HH HT Hh. pose proof (steepness_pos g0 H T g0_pos HH HT). split.
  - unfold imp, calculate_dimensionless_structure_induced_setup_impermeable, g_default. fold g0. cbv zeta.
    rewrite steepness_fin by auto. nfin. replace (- (1.6) * H / H + 1.6) with 0 by (field; lra).
    rewrite npow_0_pos by lra. nfin. mval. rewrite checks_su. mval. nfin. do 2 f_equal. ring.
  - unfold per, calculate_dimensionless_structure_induced_setup_permeable, g_default. fold g0. cbv zeta.
    rewrite steepness_fin by auto. nfin. replace (- (1.5) * H / H + 1.5) with 0 by (field; lra).
    rewrite npow_0_pos by lra. nfin. mval. rewrite checks_su. mval. nfin. do 2 f_equal. ring.
Qed.

Lemma not_int a z : IZR z < a < IZR z + 1 -> is_int a = false.
Proof. intros. unfold is_int. rewrite (Int_part_spec a z) by lra. apply Reqb_false. lra. Qed.

Theorem C57_no_number_below_the_limit : forall H T Rc hc, 0 < H -> 0 < T -> 0 < hc ->
  (Rc < - (1.6) * H -> value (imp (Fin H) (Fin T) (Fin Rc)) = Ok NaN) /\
  (Rc < - (1.5) * H -> value (per (Fin H) (Fin T) (Fin Rc) (Fin hc)) = Ok NaN).
Proof.
  intros H T Rc hc HH HT Hh. pose proof (steepness_pos g0 H T g0_pos HH HT). split; intros HR.
  - unfold imp, calculate_dimensionless_structure_induced_setup_impermeable, g_default. fold g0. cbv zeta.
    rewrite steepness_fin by auto. nfin. rewrite npow_neg_nonint.
    + mval. rewrite checks_su. mval. reflexivity.
    + apply Rmult_lt_reg_r with H; [assumption|]. replace ((Rc / H + 1.6) * H) with (Rc + 1.6 * H) by (field; lra). lra.
    + apply (not_int _ 3). lra.
  - unfold per, calculate_dimensionless_structure_induced_setup_permeable, g_default. fold g0. cbv zeta.
    rewrite steepness_fin by auto. nfin. rewrite npow_neg_nonint.
    + mval. rewrite checks_su. mval. reflexivity.
    + apply Rmult_lt_reg_r with H; [assumption|]. replace ((Rc / H + 1.5) * H) with (Rc + 1.5 * H) by (field; lra). lra.
    + apply (not_int _ 1). lra.
Qed.

(** Lengths scaled by [l] and times by [sqrt l]: the set-up scales along. *)
Theorem C57_froude_scaling : forall l H T Rc hc, 0 < l -> 0 < H -> 0 < T -> 0 < hc ->
  - (1.5) * H < Rc -> exists di dp,
  value (imp (Fin H) (Fin T) (Fin Rc)) = Ok (Fin di) /\
  value (imp (Fin (l * H)) (Fin (sqrt l * T)) (Fin (l * Rc))) = Ok (Fin (l * di)) /\
  value (per (Fin H) (Fin T) (Fin Rc) (Fin hc)) = Ok (Fin dp) /\
  value (per (Fin (l * H)) (Fin (sqrt l * T)) (Fin (l * Rc)) (Fin (l * hc))) = Ok (Fin (l * dp)).
Proof.
  intros l H T Rc hc Hl HH HT Hh HR. eexists. eexists.
  assert (0 < l * H) by rpos. assert (0 < l * hc) by rpos. assert (0 < sqrt l * T) by rpos.
  assert (l * (-(1.5) * H) < l * Rc) by (apply Rmult_lt_compat_l; assumption).
  split; [apply C57_impermeable_formula; lra|]. split; [|split; [apply C57_permeable_formula; lra|]].
  - rewrite (proj2 (C57_impermeable_formula (l * H) (sqrt l * T) (l * Rc) ltac:(assumption) ltac:(assumption) ltac:(lra))).
    rewrite steepness_froude by auto. unfold setup_impermeable.
    replace (l * Rc / (l * H)) with (Rc / H) by (field; lra). do 2 f_equal. ring.
  - rewrite (proj2 (C57_permeable_formula (l * H) (sqrt l * T) (l * Rc) (l * hc) ltac:(assumption) ltac:(assumption) ltac:(assumption) ltac:(lra))).
    rewrite steepness_froude by auto. unfold setup_permeable.
    replace (l * Rc / (l * H)) with (Rc / H) by (field; lra). replace (l * hc / (l * H)) with (hc / H) by (field; lra).
    do 2 f_equal. ring.
Qed.

(** Warnings.  For permeable structures the crest width is looked at although
    the function does not take one: it is missing, so it is never reported. *)
Theorem C57_impermeable_warnings : forall H T Rc, 0 < H -> 0 < T ->
  flagged
    [ Range "Wave steepness sm-1,0" "Van Gent (2024)" (steepness g0 H T) 0.01 0.04;
      Range "Dimensionless freeboard Rc/Hm0" "Van Gent (2024)" (Rc / H) (-(1)) 0 ]
    (warns (imp (Fin H) (Fin T) (Fin Rc))).
Proof.
  intros H T Rc HH HT. unfold imp, calculate_dimensionless_structure_induced_setup_impermeable, check_validity_range, g_default. fold g0.
  cbv zeta. rewrite steepness_fin by auto. cbn [provided isnan negb andb when]. rewrite !bind_assoc. nfin. flags.
Qed.

Theorem C57_permeable_warnings : forall H T Rc hc, 0 < H -> 0 < T ->
  flagged
    [ Range "Wave steepness sm-1,0" "Van Gent (2024)" (steepness g0 H T) 0.008 0.04;
      Range "Dimensionless freeboard Rc/Hm0" "Van Gent (2024)" (Rc / H) (-(0.8)) 0;
      Range "Dimensionless submerged structure height hc/Hm0" "Van Gent (2024)" (hc / H) 1.5 3 ]
    (warns (per (Fin H) (Fin T) (Fin Rc) (Fin hc))).
Proof.
  intros H T Rc hc HH HT. unfold per, calculate_dimensionless_structure_induced_setup_permeable, check_validity_range, g_default. fold g0.
  cbv zeta. rewrite steepness_fin by auto. cbn [provided isnan negb andb when]. rewrite !bind_assoc.
  do 3 (fstep; fval). fnorm. constructor.
Qed.

(** A crest 0.6 wave heights under water: no power of the freeboard is left. *)
Example C57_example : forall T, 0 < T ->
  value (imp (Fin 2) (Fin T) (Fin (-(1.2)))) = Ok (Fin (0.68 * Rpower (steepness g0 2 T) 0.4)).
Proof.
  intros. rewrite (proj2 (C57_impermeable_formula 2 T (-(1.2)) ltac:(lra) ltac:(lra) ltac:(lra))).
  do 2 f_equal. unfold setup_impermeable. replace (-(1.2) / 2 + 1.6) with 1 by lra. rewrite Rpower_1_base. lra.
Qed.
