(** Rounding of reals to double precision (IEEE 754 binary64, 53 significant
    bits, nearest, ties to even).  The exponent is not bounded: overflow and
    the loss of bits below 2^-1022 are left out. *)
From Coq Require Import Reals Lra Lia ZArith Bool.
From Verif.Lib Require Import Num RTac.
Open Scope R_scope.

Definition pow2 (e : Z) : R := powerRZ 2 e.

(** The exponent of a positive number: 2^e <= x < 2^(e+1). *)
Definition exponent (x : R) : Z := Int_part (ln x / ln 2).

Definition round_positive (x : R) : R :=
  let e := exponent x in Rround (x * pow2 (52 - e)) * pow2 (e - 52).
Definition round64 (x : R) : R :=
  if Rltb 0 x then round_positive x
  else if Rltb x 0 then - round_positive (- x)
  else 0.

(** The numbers of double precision. *)
Definition double (x : R) : Prop := exists m e, (Z.abs m <= 2 ^ 53)%Z /\ x = IZR m * pow2 e.

(** ** Powers of two *)
Lemma pow2_pos e : 0 < pow2 e.
Proof. apply powerRZ_lt. lra. Qed.
Lemma pow2_add a b : pow2 (a + b) = pow2 a * pow2 b.
Proof. apply powerRZ_add. lra. Qed.
Lemma pow2_0 : pow2 0 = 1. Proof. reflexivity. Qed.
Lemma pow2_nat n : pow2 (Z.of_nat n) = IZR (2 ^ Z.of_nat n).
Proof. unfold pow2. rewrite <- pow_powerRZ, pow_IZR. reflexivity. Qed.
Lemma pow2_Z e : (0 <= e)%Z -> pow2 e = IZR (2 ^ e).
Proof. intros. rewrite <- (Z2Nat.id e) by assumption. apply pow2_nat. Qed.
Lemma pow2_ge1 e : (0 <= e)%Z -> 1 <= pow2 e.
Proof. intros. rewrite pow2_Z by assumption. apply (IZR_le 1). pose proof (Z.pow_pos_nonneg 2 e). lia. Qed.
Lemma pow2_le a b : (a <= b)%Z -> pow2 a <= pow2 b.
Proof.
  intros. replace b with (a + (b - a))%Z by lia. rewrite pow2_add.
  pose proof (pow2_pos a). assert (1 <= pow2 (b - a)) by (apply pow2_ge1; lia). nra.
Qed.
Lemma pow2_cancel e : pow2 (52 - e) * pow2 (e - 52) = 1.
Proof. rewrite <- pow2_add. replace (52 - e + (e - 52))%Z with 0%Z by lia. reflexivity. Qed.

Lemma exponent_spec x : 0 < x -> pow2 (exponent x) <= x < pow2 (exponent x + 1).
Proof.
  intros P. unfold pow2. rewrite !powerRZ_Rpower by lra. unfold Rpower. rewrite plus_IZR.
  assert (L : 0 < ln 2) by (rewrite <- ln_1; apply ln_increasing; lra).
  unfold exponent. set (q := ln x / ln 2). destruct (base_Int_part q) as [A B].
  assert (E : ln x = q * ln 2) by (unfold q; field; lra).
  assert (X : x = exp (q * ln 2)) by (rewrite <- E, exp_ln; auto).
  split.
  - rewrite X at 1. destruct (Rle_lt_or_eq_dec _ _ A) as [H|H].
    + left. apply exp_increasing. nra.
    + rewrite H. apply Rle_refl.
  - rewrite X. apply exp_increasing. nra.
Qed.

Lemma exponent_is x e : pow2 e <= x < pow2 (e + 1) -> exponent x = e.
Proof.
  intros [A B]. pose proof (pow2_pos e). destruct (exponent_spec x ltac:(lra)) as [C D].
  destruct (Z.lt_trichotomy (exponent x) e) as [H1|[H1|H1]]; [|assumption|].
  - pose proof (pow2_le (exponent x + 1) e ltac:(lia)). lra.
  - pose proof (pow2_le (e + 1) (exponent x) ltac:(lia)). lra.
Qed.
Lemma exponent_mono x y : 0 < x -> x <= y -> (exponent x <= exponent y)%Z.
Proof.
  intros P L. destruct (exponent_spec x P) as [A _], (exponent_spec y ltac:(lra)) as [_ B].
  destruct (Z.le_gt_cases (exponent x) (exponent y)) as [H|H]; [assumption|].
  pose proof (pow2_le (exponent y + 1) (exponent x) ltac:(lia)). lra.
Qed.

(** ** Rounding to an integer *)
Lemma Rabs_le_inv a b : Rabs a <= b -> - b <= a <= b.
Proof. unfold Rabs. destruct (Rcase_abs a); lra. Qed.
Lemma Rround_half x : exists n, Rround x = IZR n /\ Rabs (x - IZR n) <= 1 / 2.
Proof.
  unfold Rround. destruct (base_Int_part x) as [A B]. set (n := Int_part x) in *.
  assert (C : x - IZR n < 1) by lra.
  destruct (Rltb_spec (x - IZR n) (1 / 2)); [|destruct (Rltb_spec (1 / 2) (x - IZR n)); [|destruct (Z.even n)]];
    eexists; (split; [reflexivity|]); try rewrite plus_IZR; apply Rabs_le; lra.
Qed.
Lemma Rround_is x n : Rabs (x - IZR n) < 1 / 2 -> Rround x = IZR n.
Proof.
  intros H. destruct (Rround_half x) as (m & E & L). rewrite E. f_equal.
  apply Rabs_def2 in H. apply Rabs_le_inv in L.
  assert (m < n + 1)%Z by (apply lt_IZR; rewrite plus_IZR; lra).
  assert (n < m + 1)%Z by (apply lt_IZR; rewrite plus_IZR; lra). lia.
Qed.
Lemma Rround_IZR n : Rround (IZR n) = IZR n.
Proof. apply Rround_is. rewrite Rminus_diag_eq, Rabs_R0 by reflexivity. lra. Qed.
Lemma Rround_best x n : Rabs (x - Rround x) <= Rabs (x - IZR n).
Proof.
  destruct (Rround_half x) as (m & E & L). rewrite E.
  destruct (Z.eq_dec m n) as [->|H]; [apply Rle_refl|].
  assert (H' : (1 <= Z.abs (n - m))%Z) by lia. apply IZR_le in H'. rewrite abs_IZR, minus_IZR in H'.
  revert L H'. unfold Rabs. repeat destruct Rcase_abs; lra.
Qed.
Lemma Rround_mono x y : x <= y -> Rround x <= Rround y.
Proof.
  intros [L| ->]; [|apply Rle_refl].
  destruct (Rround_half x) as (m & E & A). destruct (Rround_half y) as (n & F & B).
  rewrite E, F. apply IZR_le.
  destruct (Z.le_gt_cases m n) as [H|H]; [assumption|exfalso].
  apply Rabs_le_inv in A, B.
  assert (H' : (n + 1 <= m)%Z) by lia. apply IZR_le in H'. rewrite plus_IZR in H'. lra.
Qed.

(** ** Rounding to double precision *)
Lemma scaled x e : x * pow2 (52 - e) * pow2 (e - 52) = x.
Proof. rewrite Rmult_assoc, pow2_cancel. ring. Qed.
Lemma scaled' x e : x * pow2 (e - 52) * pow2 (52 - e) = x.
Proof. rewrite Rmult_assoc, (Rmult_comm (pow2 (e - 52))), pow2_cancel. ring. Qed.
Lemma pow2_52 e : IZR (2 ^ 52) * pow2 (e - 52) = pow2 e.
Proof. rewrite <- pow2_Z, <- pow2_add by lia. f_equal. lia. Qed.
Lemma pow2_53 e : IZR (2 ^ 53) * pow2 (e - 52) = pow2 (e + 1).
Proof. rewrite <- pow2_Z, <- pow2_add by lia. f_equal. lia. Qed.

(** Within a binade the result stays in the binade, or is the next power. *)
Lemma round_bounds x : 0 < x -> pow2 (exponent x) <= round_positive x <= pow2 (exponent x + 1).
Proof.
  intros P. destruct (exponent_spec x P) as [A B]. unfold round_positive. set (e := exponent x) in *.
  pose proof (pow2_pos (e - 52)) as Q. pose proof (pow2_pos (52 - e)) as Q'.
  rewrite <- pow2_52, <- pow2_53. split; apply Rmult_le_compat_r; try lra.
  - rewrite <- (Rround_IZR (2 ^ 52)). apply Rround_mono.
    rewrite <- (scaled' (IZR (2 ^ 52)) e), pow2_52. apply Rmult_le_compat_r; lra.
  - rewrite <- (Rround_IZR (2 ^ 53)). apply Rround_mono.
    rewrite <- (scaled' (IZR (2 ^ 53)) e), pow2_53. apply Rmult_le_compat_r; lra.
Qed.
Lemma round_positive_pos x : 0 < x -> 0 < round_positive x.
Proof. intros P. pose proof (round_bounds x P). pose proof (pow2_pos (exponent x)). lra. Qed.

Lemma round_positive_mono x y : 0 < x -> x <= y -> round_positive x <= round_positive y.
Proof.
  intros P L. pose proof (exponent_mono x y P L) as E.
  destruct (Z.eq_dec (exponent x) (exponent y)) as [H|H].
  - unfold round_positive. rewrite H. apply Rmult_le_compat_r; [left; apply pow2_pos|]. apply Rround_mono.
    apply Rmult_le_compat_r; [left; apply pow2_pos|assumption].
  - pose proof (round_bounds x P). pose proof (round_bounds y ltac:(lra)).
    pose proof (pow2_le (exponent x + 1) (exponent y) ltac:(lia)). lra.
Qed.

Lemma round64_pos x : 0 < x -> round64 x = round_positive x.
Proof. intros. unfold round64. destruct (Rltb_spec 0 x); [reflexivity|lra]. Qed.
Lemma round64_neg x : round64 (- x) = - round64 x.
Proof.
  unfold round64. destruct (Rltb_spec 0 x), (Rltb_spec 0 (- x)), (Rltb_spec x 0), (Rltb_spec (- x) 0);
    try (exfalso; lra); rewrite ?Ropp_involutive; ring.
Qed.
Lemma round64_0 : round64 0 = 0.
Proof. unfold round64. destruct (Rltb_spec 0 0); [lra|reflexivity]. Qed.

Theorem round64_mono x y : x <= y -> round64 x <= round64 y.
Proof.
  intros L. destruct (Rlt_dec 0 x) as [P|P].
  - rewrite !round64_pos by lra. apply round_positive_mono; assumption.
  - destruct (Rlt_dec y 0) as [N|N].
    + rewrite <- (Ropp_involutive x), <- (Ropp_involutive y), (round64_neg (- x)), (round64_neg (- y)).
      apply Ropp_le_contravar. rewrite !round64_pos by lra. apply round_positive_mono; lra.
    + apply Rle_trans with 0.
      * destruct (Rlt_dec x 0) as [Q|Q]; [|assert (x = 0) by lra; subst; rewrite round64_0; lra].
        rewrite <- (Ropp_involutive x), round64_neg. pose proof (round_positive_pos (- x) ltac:(lra)).
        rewrite round64_pos by lra. lra.
      * destruct (Rlt_dec 0 y) as [Q|Q]; [|assert (y = 0) by lra; subst; rewrite round64_0; lra].
        rewrite round64_pos by lra. left. apply round_positive_pos. assumption.
Qed.

(** A double keeps its value. *)
Lemma double_scaled x e : 0 < x -> double x -> pow2 e <= x -> exists n, x * pow2 (52 - e) = IZR n.
Proof.
  intros P (m & k & B & E) A.
  assert (Pm : (0 < m)%Z). { apply (lt_IZR 0). pose proof (pow2_pos k). destruct (Rlt_dec 0 (IZR m)); [assumption|nra]. }
  assert (K : (e <= 53 + k)%Z).
  { destruct (Z.le_gt_cases e (53 + k)) as [H|H]; [assumption|exfalso].
    pose proof (pow2_le (53 + k + 1) e ltac:(lia)) as L. rewrite !pow2_add in L. rewrite (pow2_Z 53), (pow2_Z 1) in L by lia.
    assert (IZR m <= IZR (2 ^ 53)) by (apply IZR_le; lia). pose proof (pow2_pos k).
    assert (IZR m * pow2 k <= IZR (2 ^ 53) * pow2 k) by (apply Rmult_le_compat_r; lra).
    assert (0 < IZR (2 ^ 53)) by (apply (IZR_lt 0); reflexivity). change (2 ^ 1)%Z with 2%Z in L. nra. }
  destruct (Z.eq_dec e (53 + k)) as [H|H].
  - exists (2 ^ 52)%Z. assert (M : m = (2 ^ 53)%Z).
    { apply Z.le_antisymm; [lia|]. apply le_IZR. rewrite <- (pow2_Z 53) by lia. subst e x.
      rewrite pow2_add in A. pose proof (pow2_pos k). nra. }
    subst m x. rewrite <- (pow2_Z 53), <- (pow2_Z 52), <- !pow2_add by lia. f_equal. lia.
  - exists (m * 2 ^ (52 - e + k))%Z. rewrite mult_IZR, <- pow2_Z by lia. rewrite E, Rmult_assoc, <- pow2_add.
    do 2 f_equal. lia.
Qed.

Theorem round64_exact x : double x -> round64 x = x.
Proof.
  assert (G : forall x, 0 < x -> double x -> round64 x = x).
  { intros y P D. rewrite round64_pos by assumption. unfold round_positive.
    destruct (exponent_spec y P) as [A _]. destruct (double_scaled y _ P D A) as (n & E).
    rewrite E, Rround_IZR, <- E. apply scaled. }
  intros D. destruct (Rlt_dec 0 x); [auto|]. destruct (Rlt_dec x 0).
  - rewrite <- (Ropp_involutive x), round64_neg. f_equal. apply G; [lra|].
    destruct D as (m & e & B & ->). exists (- m)%Z, e. split; [lia|]. rewrite opp_IZR. ring.
  - replace x with 0 by lra. apply round64_0.
Qed.

(** The result is a double, and no double is nearer. *)
Theorem round64_double x : double (round64 x).
Proof.
  assert (G : forall x, 0 < x -> double (round_positive x)).
  { intros y P. pose proof (round_bounds y P) as B. unfold round_positive in *. set (e := exponent y) in *.
    destruct (Rround_half (y * pow2 (52 - e))) as (n & E & _). rewrite E in *. exists n, (e - 52)%Z. split; [|reflexivity].
    rewrite <- pow2_52, <- pow2_53 in B. pose proof (pow2_pos (e - 52)).
    destruct B as [B1 B2]. apply Rmult_le_reg_r in B1, B2; try assumption. apply le_IZR in B1, B2. lia. }
  unfold round64. destruct (Rltb_spec 0 x); [auto|]. destruct (Rltb_spec x 0).
  - destruct (G (- x)) as (m & e & B & E); [lra|]. exists (- m)%Z, e. split; [lia|]. rewrite E, opp_IZR. ring.
  - exists 0%Z, 0%Z. split; [lia|]. ring.
Qed.

Theorem round64_nearest x z : double z -> Rabs (x - round64 x) <= Rabs (x - z).
Proof.
  assert (G : forall x z, 0 < x -> double z -> Rabs (x - round64 x) <= Rabs (x - z)).
  { clear. intros x z P D. rewrite round64_pos by assumption. destruct (exponent_spec x P) as [A _].
    unfold round_positive. set (e := exponent x) in *. pose proof (pow2_pos (e - 52)) as Q.
    assert (H : forall n, Rabs (x - Rround (x * pow2 (52 - e)) * pow2 (e - 52)) <= Rabs (x - IZR n * pow2 (e - 52))).
    { intros n. rewrite <- (scaled x e) at 1 3. rewrite <- !Rmult_minus_distr_r, !Rabs_mult.
      apply Rmult_le_compat_r; [apply Rabs_pos|]. apply Rround_best. }
    destruct (Rle_dec (pow2 e) z) as [L|L].
    - pose proof (pow2_pos e). destruct (double_scaled z e ltac:(lra) D L) as (n & E).
      specialize (H n). rewrite <- E, scaled in H. exact H.
    - specialize (H (2 ^ 52)%Z). rewrite pow2_52 in H. eapply Rle_trans; [exact H|].
      rewrite !Rabs_right by lra. lra. }
  intros D. destruct (Rlt_dec 0 x); [auto|]. destruct (Rlt_dec x 0).
  - rewrite <- (Rabs_Ropp (x - round64 x)), <- (Rabs_Ropp (x - z)).
    replace (- (x - round64 x)) with (- x - round64 (- x)) by (rewrite round64_neg; ring).
    replace (- (x - z)) with (- x - (- z)) by ring. apply G; [lra|].
    destruct D as (m & e & B & ->). exists (- m)%Z, e. split; [lia|]. rewrite opp_IZR. ring.
  - replace x with 0 by lra. rewrite round64_0, Rminus_diag_eq, Rabs_R0 by reflexivity. apply Rabs_pos.
Qed.

(** Relative error at most 2^-53. *)
Theorem round64_error x : Rabs (round64 x - x) <= Rabs x * pow2 (-53).
Proof.
  assert (G : forall x, 0 < x -> Rabs (round64 x - x) <= x * pow2 (-53)).
  { clear. intros x P. rewrite round64_pos by assumption. destruct (exponent_spec x P) as [A _].
    unfold round_positive. set (e := exponent x) in *. pose proof (pow2_pos (e - 52)) as Q.
    rewrite <- (scaled x e) at 2. rewrite <- Rmult_minus_distr_r, Rabs_mult, (Rabs_right (pow2 (e - 52))) by lra.
    destruct (Rround_half (x * pow2 (52 - e))) as (n & E & L). rewrite E, Rabs_minus_sym.
    apply Rle_trans with (1 / 2 * pow2 (e - 52)); [apply Rmult_le_compat_r; lra|].
    replace (1 / 2 * pow2 (e - 52)) with (pow2 e * pow2 (-53)); [pose proof (pow2_pos (-53)); nra|].
    replace (e - 52)%Z with (e + -53 + 1)%Z by lia. rewrite !pow2_add. unfold pow2 at 5. simpl. field. }
  destruct (Rlt_dec 0 x); [rewrite (Rabs_right x) by lra; auto|]. destruct (Rlt_dec x 0).
  - rewrite (Rabs_left x) by lra. rewrite <- Rabs_Ropp.
    replace (- (round64 x - x)) with (round64 (- x) - - x) by (rewrite round64_neg; ring). apply G. lra.
  - replace x with 0 by lra. rewrite round64_0, Rminus_diag_eq, Rabs_R0 by reflexivity. lra.
Qed.

(** Computing a rounding: the exponent and the nearest multiple. *)
Theorem round64_is e n x : pow2 e <= x < pow2 (e + 1) -> Rabs (x * pow2 (52 - e) - IZR n) < 1 / 2 ->
  round64 x = IZR n * pow2 (e - 52).
Proof.
  intros A B. pose proof (pow2_pos e). rewrite round64_pos by lra. unfold round_positive.
  rewrite (exponent_is x e A), (Rround_is _ n B). reflexivity.
Qed.
