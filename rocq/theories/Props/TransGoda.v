(** Property C31: wave transmission behind caissons, Goda et al. (1967). *)
From Coq Require Import Reals ZArith Lra List Bool String.
From Verif.Lib Require Import Num Monad RTac NTac.
From Verif.Spec Require Import Transmission.
From Verif.Model Require Import CoreUtility Numpy Goda1967.
From Verif.Proofs Require Import Core.
Import ListNotations.
Open Scope R_scope.

Notation Kt := calculate_wave_transmission_Kt.

(** ** One pair of numbers.  [r] is the relative freeboard Rc / Hsi. *)
Theorem C31_three_branches : forall H Rc a b, H <> 0 -> 0 < a ->
  let r := Rc / H in
  (r <= - a - b -> Kt (Fin H) (Fin Rc) (Fin a) (Fin b) = PyInt (Fin 1)) /\
  (- a - b < r <= a - b -> Kt (Fin H) (Fin Rc) (Fin a) (Fin b) = PyFloat (Fin (goda_sine a b r))) /\
  (a - b < r -> Kt (Fin H) (Fin Rc) (Fin a) (Fin b) = PyFloat (Fin 0.03)).
Proof.
  intros H Rc a b HH Ha r. unfold Kt. cbv zeta. nfin. fold r.
  replace (- (1) * a - b) with (- a - b) by ring.
  repeat split; intros.
  - rewrite Rleb_true by lra. reflexivity.
  - rewrite Rleb_false, Rleb_true by lra. do 2 f_equal. unfold goda_sine. lra.
  - rewrite !Rleb_false by lra. reflexivity.
Qed.

Lemma sine_arg a b r : 0 < a -> - a - b < r <= a - b -> - (PI / 2) < PI / 2 * ((r + b) / a) <= PI / 2.
Proof.
  intros Ha [H1 H2]. pose proof PI_RGT_0.
  assert (-1 < (r + b) / a <= 1).
  { split.
    - apply Rmult_lt_reg_r with a; [assumption|]. unfold Rdiv. rewrite Rmult_assoc, Rinv_l by lra. lra.
    - apply Rmult_le_reg_r with a; [assumption|]. unfold Rdiv. rewrite Rmult_assoc, Rinv_l by lra. lra. }
  split.
  - apply Rle_lt_trans with (PI / 2 * -1); [lra|]. apply Rmult_lt_compat_l; lra.
  - apply Rle_trans with (PI / 2 * 1); [|lra]. apply Rmult_le_compat_l; lra.
Qed.

Lemma sine_range a b r : 0 < a -> - a - b < r <= a - b -> 0 <= goda_sine a b r < 1.
Proof.
  intros Ha Hr. pose proof (sine_arg a b r Ha Hr) as [H1 H2]. unfold goda_sine.
  pose proof (SIN_bound (PI / 2 * ((r + b) / a))).
  assert (sin (- (PI / 2)) < sin (PI / 2 * ((r + b) / a))) by (apply sin_increasing_1; pose proof PI_RGT_0; lra).
  rewrite sin_neg, sin_PI2 in *. lra.
Qed.

(** The number a result stands for. *)
Definition coefficient (v : pyval) (k : R) : Prop := v = PyInt (Fin k) \/ v = PyFloat (Fin k).

Theorem C31_between_0_and_1 : forall H Rc a b, H <> 0 -> 0 < a ->
  exists k, coefficient (Kt (Fin H) (Fin Rc) (Fin a) (Fin b)) k /\ 0 <= k <= 1.
Proof.
  intros H Rc a b HH Ha. destruct (C31_three_branches H Rc a b HH Ha) as (B1 & B2 & B3).
  destruct (Rle_lt_dec (Rc / H) (- a - b)) as [L|L]; [|destruct (Rle_lt_dec (Rc / H) (a - b)) as [L'|L']].
  - exists 1. split; [left; apply B1; assumption|lra].
  - exists (goda_sine a b (Rc / H)). split; [right; apply B2; lra|].
    pose proof (sine_range a b (Rc / H)). lra.
  - exists 0.03. split; [right; apply B3; assumption|lra].
Qed.

(** Up to the upper limiting freeboard the coefficient decreases... *)
Theorem C31_decreasing_below_the_limit : forall H Rc1 Rc2 a b k1 k2, 0 < H -> 0 < a ->
  Rc1 < Rc2 -> Rc2 / H <= a - b ->
  coefficient (Kt (Fin H) (Fin Rc1) (Fin a) (Fin b)) k1 ->
  coefficient (Kt (Fin H) (Fin Rc2) (Fin a) (Fin b)) k2 ->
  k2 <= k1 /\ (- a - b < Rc2 / H -> k2 < k1).
Proof.
  intros H Rc1 Rc2 a b k1 k2 HH Ha HR HL E1 E2.
  assert (HR' : Rc1 / H < Rc2 / H) by (apply Rmult_lt_compat_r; [rpos|assumption]).
  destruct (C31_three_branches H Rc1 a b ltac:(lra) Ha) as (B1 & B2 & _).
  destruct (C31_three_branches H Rc2 a b ltac:(lra) Ha) as (C1 & C2 & _).
  assert (K1 : Rc1 / H <= - a - b /\ k1 = 1 \/ - a - b < Rc1 / H /\ k1 = goda_sine a b (Rc1 / H)).
  { destruct (Rle_lt_dec (Rc1 / H) (- a - b)); [left|right]; (split; [assumption|]).
    - rewrite B1 in E1 by assumption. destruct E1 as [E|E]; congruence.
    - rewrite B2 in E1 by lra. destruct E1 as [E|E]; congruence. }
  assert (K2 : Rc2 / H <= - a - b /\ k2 = 1 \/ - a - b < Rc2 / H /\ k2 = goda_sine a b (Rc2 / H)).
  { destruct (Rle_lt_dec (Rc2 / H) (- a - b)); [left|right]; (split; [assumption|]).
    - rewrite C1 in E2 by assumption. destruct E2 as [E|E]; congruence.
    - rewrite C2 in E2 by lra. destruct E2 as [E|E]; congruence. }
  clear E1 E2 B1 B2 C1 C2. destruct K1 as [[L1 ->]|[L1 ->]], K2 as [[L2 ->]|[L2 ->]]; try lra.
  - pose proof (sine_range a b (Rc2 / H) Ha ltac:(lra)). lra.
  - pose proof (sine_arg a b (Rc1 / H) Ha ltac:(lra)). pose proof (sine_arg a b (Rc2 / H) Ha ltac:(lra)).
    assert (sin (PI / 2 * ((Rc1 / H + b) / a)) < sin (PI / 2 * ((Rc2 / H + b) / a))).
    { apply sin_increasing_1; try lra. pose proof PI_RGT_0. apply Rmult_lt_compat_l; [lra|].
      apply Rmult_lt_compat_r; [apply Rinv_0_lt_compat; assumption|lra]. }
    unfold goda_sine. lra.
Qed.

(** ... to exactly 0 at the limit, less than the 0.03 returned beyond it: the
    coefficient is not a decreasing function of the freeboard. *)
Theorem C31_zero_at_the_limit : forall H a b, H <> 0 -> 0 < a ->
  Kt (Fin H) (Fin ((a - b) * H)) (Fin a) (Fin b) = PyFloat (Fin 0).
Proof.
  intros H a b HH Ha. destruct (C31_three_branches H ((a - b) * H) a b HH Ha) as (_ & B2 & _).
  replace ((a - b) * H / H) with (a - b) in B2 by (field; assumption).
  rewrite B2 by lra. do 2 f_equal. unfold goda_sine.
  replace ((a - b + b) / a) with 1 by (field; lra). rewrite Rmult_1_r, sin_PI2. lra.
Qed.

Theorem C31_decreasing_in_freeboard_refuted : exists H Rc1 Rc2 k1 k2,
  0 < H /\ Rc1 < Rc2
  /\ coefficient (Kt (Fin H) (Fin Rc1) alpha_1_default beta_1_default) k1
  /\ coefficient (Kt (Fin H) (Fin Rc2) alpha_1_default beta_1_default) k2
  /\ k1 < k2.
Proof.
  exists 1, ((2.2 - 0.4) * 1), 2, 0, 0.03. unfold alpha_1_default, beta_1_default.
  destruct (C31_three_branches 1 2 2.2 0.4) as (_ & _ & B3); try lra.
  repeat split; try lra.
  - right. apply C31_zero_at_the_limit; lra.
  - right. apply B3. lra.
Qed.

(** ** Arrays *)
Lemma Rtrunc_01 k : 0 <= k < 1 -> Rtrunc k = 0.
Proof. intros. unfold Rtrunc. rewrite Rltb_false by lra. unfold Rfloor. rewrite (Int_part_spec k 0) by lra. reflexivity. Qed.
Lemma Rtrunc_1 : Rtrunc 1 = 1.
Proof. unfold Rtrunc. rewrite Rltb_false by lra. unfold Rfloor. change 1 with (IZR 1). rewrite Int_part_IZR. reflexivity. Qed.

Definition fin_pair (p : R * R) : num * num := (Fin (fst p), Fin (snd p)).

Lemma array_numbers l a b : 0 < a -> (forall p, In p l -> fst p <> 0) ->
  exists vs ks, Forall2 (fun p k => coefficient (Kt (Fin (fst p)) (Fin (snd p)) (Fin a) (Fin b)) k) l ks
    /\ value (mapM (fun '(Hsi, Rc) => ret (Kt Hsi Rc (Fin a) (Fin b))) (map fin_pair l)) = Ok vs
    /\ value (mapM number_of vs) = Ok (map Fin ks).
Proof.
  intros Ha. induction l as [|[H Rc] l IH]; intros Hl.
  - exists [], []. repeat split. constructor.
  - destruct IH as (vs & ks & F & E1 & E2); [intros; apply Hl; right; assumption|].
    destruct (C31_between_0_and_1 H Rc a b) as (k & Hk & _); [apply (Hl (H, Rc)); left; reflexivity|assumption|].
    exists (Kt (Fin H) (Fin Rc) (Fin a) (Fin b) :: vs), (k :: ks).
    repeat split.
    + constructor; assumption.
    + cbn [map mapM fin_pair fst snd]. mval. rewrite E1. reflexivity.
    + cbn [map mapM]. mval.
      replace (number_of (Kt (Fin H) (Fin Rc) (Fin a) (Fin b))) with (ret (Fin k)) by (destruct Hk as [-> | ->]; reflexivity).
      mval. rewrite E2. reflexivity.
Qed.

(** If the first element is not fully submerged, the array function is the
    scalar function element by element. *)
Theorem C31_array_elementwise : forall H0 Rc0 l a b, 0 < a ->
  (forall p, In p ((H0, Rc0) :: l) -> fst p <> 0) -> - a - b < Rc0 / H0 ->
  exists ks,
  value (calculate_wave_transmission_Kt_array (map fin_pair ((H0, Rc0) :: l)) (Fin a) (Fin b)) = Ok (map Fin ks)
  /\ Forall2 (fun p k => coefficient (Kt (Fin (fst p)) (Fin (snd p)) (Fin a) (Fin b)) k) ((H0, Rc0) :: l) ks.
Proof.
  intros H0 Rc0 l a b Ha Hl HR. assert (HH : H0 <> 0) by (apply (Hl (H0, Rc0)); left; reflexivity).
  destruct (array_numbers _ a b Ha Hl) as (vs & ks & F & E1 & E2). exists ks. split; [|exact F].
  unfold calculate_wave_transmission_Kt_array, vectorize. change (map fin_pair ((H0, Rc0) :: l)) with ((Fin H0, Fin Rc0) :: map fin_pair l) at 1.
  cbv iota. mval. rewrite E1. mval. rewrite E2. mval.
  destruct (C31_three_branches H0 Rc0 a b HH Ha) as (_ & B2 & B3).
  destruct (Rle_lt_dec (Rc0 / H0) (a - b)); [rewrite B2 by lra|rewrite B3 by lra]; reflexivity.
Qed.

(** If it is, every coefficient is cut down to an integer: 1 for the fully
    submerged elements, 0 for all the others. *)
Theorem C31_array_truncated : forall H0 Rc0 l a b, 0 < a ->
  (forall p, In p ((H0, Rc0) :: l) -> fst p <> 0) -> Rc0 / H0 <= - a - b ->
  exists ks,
  value (calculate_wave_transmission_Kt_array (map fin_pair ((H0, Rc0) :: l)) (Fin a) (Fin b)) = Ok (map Fin ks)
  /\ Forall2 (fun p k => (snd p / fst p <= - a - b /\ k = 1) \/ (- a - b < snd p / fst p /\ k = 0)) ((H0, Rc0) :: l) ks.
Proof.
  intros H0 Rc0 l a b Ha Hl HR. assert (HH : H0 <> 0) by (apply (Hl (H0, Rc0)); left; reflexivity).
  destruct (array_numbers _ a b Ha Hl) as (vs & ks & F & E1 & E2). exists (map Rtrunc ks). split.
  - unfold calculate_wave_transmission_Kt_array, vectorize. change (map fin_pair ((H0, Rc0) :: l)) with ((Fin H0, Fin Rc0) :: map fin_pair l) at 1.
    cbv iota. mval. rewrite E1. mval. rewrite E2. mval.
    destruct (C31_three_branches H0 Rc0 a b HH Ha) as (B1 & _ & _). rewrite B1 by assumption.
    clear. induction ks as [|k ks IH]; [reflexivity|]. cbn [map mapM]. mval. cbn [astype_int]. mval. rewrite IH. reflexivity.
  - clear - F Hl Ha. revert F Hl. generalize ((H0, Rc0) :: l). clear l. intros l F Hl.
    induction F as [|[H Rc] k l ks E F IH]; [constructor|]. cbn [map]. constructor.
    + cbn [fst snd] in *. assert (HH : H <> 0) by (apply (Hl (H, Rc)); left; reflexivity).
      destruct (C31_three_branches H Rc a b HH Ha) as (B1 & B2 & B3).
      destruct (Rle_lt_dec (Rc / H) (- a - b)) as [L|L]; [|destruct (Rle_lt_dec (Rc / H) (a - b)) as [L'|L']].
      * left. split; [assumption|]. rewrite B1 in E by assumption. destruct E as [E|E]; inversion E; subst. apply Rtrunc_1.
      * right. split; [assumption|]. rewrite B2 in E by lra. destruct E as [E|E]; inversion E; subst.
        apply Rtrunc_01, sine_range; lra.
      * right. split; [assumption|]. rewrite B3 in E by lra. destruct E as [E|E]; inversion E; subst.
        apply Rtrunc_01. lra.
    + apply IH. intros. apply Hl. right. assumption.
Qed.

(** So the array function is not the scalar function: crest at the water level
    after a deeply submerged one. *)
Theorem C31_array_elementwise_refuted : exists l ks k,
  value (calculate_wave_transmission_Kt_array l alpha_1_default beta_1_default) = Ok ks
  /\ nth_error l 1 = Some (Fin 1, Fin 0) /\ nth_error ks 1 = Some (Fin 0)
  /\ coefficient (Kt (Fin 1) (Fin 0) alpha_1_default beta_1_default) k /\ 0 < k.
Proof.
  destruct (C31_array_truncated 1 (-3) [(1, 0)] 2.2 0.4) as (ks & E & F).
  - lra.
  - intros p [<-|[<-|[]]]; cbn; lra.
  - lra.
  - inversion F as [|? k0 ? ks' _ F']; subst. inversion F' as [|? k1 ? ks'' K1 F'']; subst. inversion F''; subst.
    cbn in K1. destruct K1 as [[K1 _]|[_ ->]]; [lra|].
    exists (map fin_pair [(1, -3); (1, 0)]), (map Fin [k0; 0]), (goda_sine 2.2 0.4 (0 / 1)).
    destruct (C31_three_branches 1 0 2.2 0.4) as (_ & B2 & _); try lra.
    repeat split; try assumption; try reflexivity.
    + right. apply B2. lra.
    + unfold goda_sine. assert (sin (PI / 2 * ((0 / 1 + 0.4) / 2.2)) < sin (PI / 2)).
      { pose proof PI_RGT_0. apply sin_increasing_1; try lra. }
      rewrite sin_PI2 in *. lra.
Qed.

Theorem C31_empty_array_fails : forall a b,
  value (calculate_wave_transmission_Kt_array [] a b) = Err ValueError.
Proof. reflexivity. Qed.

(** The middle of the sine law. *)
Example C31_example :
  Kt (Fin 2) (Fin (-(0.8))) alpha_1_default beta_1_default = PyFloat (Fin (1 / 2)).
Proof.
  unfold alpha_1_default, beta_1_default. destruct (C31_three_branches 2 (-(0.8)) 2.2 0.4) as (_ & B2 & _); try lra.
  rewrite B2 by lra. do 2 f_equal. unfold goda_sine.
  replace (-(0.8) / 2 + 0.4) with 0 by lra. replace (PI / 2 * (0 / 2.2)) with 0 by lra. rewrite sin_0. lra.
Qed.
