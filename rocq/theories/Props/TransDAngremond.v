(** Property C29: wave transmission of D'Angremond et al. (1996). *)
From Coq Require Import Reals Lra List Bool String.
From Verif.Lib Require Import Num Monad RTac NTac.
From Verif.Spec Require Import Waves Ranges Transmission.
From Verif.Model Require Import CoreUtility CorePhysics DAngremond1996.
From Verif.Proofs Require Import Core CheckTac Warns.
Import ListNotations.
Open Scope R_scope.

Lemma checks_da a b c d : value (check_validity a b c d) = Ok tt.
Proof. unfold check_validity. mchecks. reflexivity. Qed.

Lemma raw_fin C H T Rc B c : 0 < H -> 0 < T -> 0 < B -> c <> 0 ->
  (- #0.4 * (Fin Rc / Fin H)
   + npow (Fin B / Fin H) (- #0.31)
     * (#1 - nexp (- #0.5 * calculate_Iribarren_number_ksi (Fin H) (Fin T) (Fin c))) * Fin C)%num
  = Fin (dangremond C H Rc B (iribarren g0 H T (1 / c))).
Proof.
  intros. rewrite iribarren_fin by assumption. nfin. unfold dangremond. f_equal. ring.
Qed.

(** The value: the published expression, cut off at 0.075 and 0.8.  The water
    depth [h] plays no role in it, whatever it is, and neither does the check. *)
Theorem C29_formula : forall C H T h Rc B c b, 0 < H -> 0 < T -> 0 < B -> c <> 0 ->
  value (calculate_wave_transmission_Kt_permeable (Fin H) (Fin T) h (Fin Rc) (Fin B) (Fin c) (Fin C) b)
  = Ok (Fin (clip 0.075 0.8 (dangremond C H Rc B (iribarren g0 H T (1 / c))))).
Proof.
  intros. unfold calculate_wave_transmission_Kt_permeable. cbv zeta. rewrite raw_fin by assumption.
  mval. rewrite value_when by apply checks_da. mval. nfin. reflexivity.
Qed.

Theorem C29_impermeable_formula : forall H T h Rc B c, 0 < H -> 0 < T -> 0 < B -> c <> 0 ->
  value (calculate_wave_transmission_Kt_impermeable (Fin H) (Fin T) h (Fin Rc) (Fin B) (Fin c) C1_impermeable)
  = Ok (Fin (clip 0.075 0.8 (dangremond 0.80 H Rc B (iribarren g0 H T (1 / c))))).
Proof. intros. apply C29_formula; assumption. Qed.

(** Bounds, without any assumption on the freeboard. *)
Lemma clip_range lo hi x : lo <= hi -> lo <= clip lo hi x <= hi.
Proof. intros. unfold clip, Rmax, Rmin. repeat destruct Rle_dec; lra. Qed.
Lemma clip_mono lo hi x y : x <= y -> clip lo hi x <= clip lo hi y.
Proof. intros. unfold clip, Rmax, Rmin. repeat destruct Rle_dec; lra. Qed.

Theorem C29_between_limits : forall C H T h Rc B c b, 0 < H -> 0 < T -> 0 < B -> c <> 0 ->
  exists K, 0.075 <= K <= 0.8 /\
  value (calculate_wave_transmission_Kt_permeable (Fin H) (Fin T) h (Fin Rc) (Fin B) (Fin c) (Fin C) b) = Ok (Fin K).
Proof.
  intros. eexists. split; [|apply C29_formula; assumption]. apply clip_range. lra.
Qed.

Lemma damped_pos k xi : 0 < k -> 0 < xi -> 0 < 1 - exp (- k * xi) < 1.
Proof.
  intros. pose proof (exp_pos (- k * xi)). assert (exp (- k * xi) < exp 0); [|rewrite exp_0 in *; lra].
  apply exp_increasing. apply Rlt_gt in H. assert (0 < k * xi) by rpos. lra.
Qed.

(** Monotone in freeboard, in crest width and in the coefficient. *)
Theorem C29_decreasing_in_freeboard : forall C H T h Rc1 Rc2 B c b K1 K2,
  0 < H -> 0 < T -> 0 < B -> c <> 0 -> Rc1 <= Rc2 ->
  value (calculate_wave_transmission_Kt_permeable (Fin H) (Fin T) h (Fin Rc1) (Fin B) (Fin c) (Fin C) b) = Ok (Fin K1) ->
  value (calculate_wave_transmission_Kt_permeable (Fin H) (Fin T) h (Fin Rc2) (Fin B) (Fin c) (Fin C) b) = Ok (Fin K2) ->
  K2 <= K1.
Proof.
  intros until K2. intros HH HT HB Hc HR. rewrite !C29_formula by assumption. intros [= <-] [= <-].
  apply clip_mono. unfold dangremond. assert (Rc1 / H <= Rc2 / H) by (apply Rmult_le_compat_r; [left; rpos|assumption]). lra.
Qed.

(** Strictly, where neither limit is active. *)
Theorem C29_strictly_decreasing_unclipped : forall C H T h Rc1 Rc2 B c b K1 K2,
  0 < H -> 0 < T -> 0 < B -> c <> 0 -> Rc1 < Rc2 ->
  value (calculate_wave_transmission_Kt_permeable (Fin H) (Fin T) h (Fin Rc1) (Fin B) (Fin c) (Fin C) b) = Ok (Fin K1) ->
  value (calculate_wave_transmission_Kt_permeable (Fin H) (Fin T) h (Fin Rc2) (Fin B) (Fin c) (Fin C) b) = Ok (Fin K2) ->
  0.075 < K1 < 0.8 -> 0.075 < K2 < 0.8 -> K1 - K2 = 0.4 * ((Rc2 - Rc1) / H).
Proof.
  intros until K2. intros HH HT HB Hc HR. rewrite !C29_formula by assumption. intros [= <-] [= <-].
  set (x := iribarren _ _ _ _). unfold dangremond.
  replace (Rc2 / H) with (Rc1 / H + (Rc2 - Rc1) / H) by (field; lra).
  unfold clip, Rmax, Rmin. repeat destruct Rle_dec; lra.
Qed.

Theorem C29_decreasing_in_crest_width : forall C H T h Rc B1 B2 c b K1 K2,
  0 <= C -> 0 < H -> 0 < T -> 0 < B1 -> 0 < c -> B1 <= B2 ->
  value (calculate_wave_transmission_Kt_permeable (Fin H) (Fin T) h (Fin Rc) (Fin B1) (Fin c) (Fin C) b) = Ok (Fin K1) ->
  value (calculate_wave_transmission_Kt_permeable (Fin H) (Fin T) h (Fin Rc) (Fin B2) (Fin c) (Fin C) b) = Ok (Fin K2) ->
  K2 <= K1.
Proof.
  intros until K2. intros HC HH HT HB Hc HR. rewrite !C29_formula by (assumption || lra). intros [= <-] [= <-].
  assert (Hx : 0 < iribarren g0 H T (1 / c)) by (apply iribarren_pos; auto; rpos).
  apply clip_mono. unfold dangremond.
  pose proof (damped_pos 0.5 _ ltac:(lra) Hx) as Hd.
  assert (HP : Rpower (B2 / H) (-(0.31)) <= Rpower (B1 / H) (-(0.31))).
  { destruct HR as [HR| <-]; [|right; reflexivity]. left. apply Rpower_lt_base_neg; [lra|rpos|].
    apply Rmult_lt_compat_r; [rpos|assumption]. }
  apply Rplus_le_compat_l. apply Rmult_le_compat_r; [lra|]. apply Rmult_le_compat_l; lra.
Qed.

Theorem C29_impermeable_at_least_permeable : forall H T h h' Rc B c b K1 K2,
  0 < H -> 0 < T -> 0 < B -> 0 < c ->
  value (calculate_wave_transmission_Kt_permeable (Fin H) (Fin T) h (Fin Rc) (Fin B) (Fin c) C1_permeable b) = Ok (Fin K1) ->
  value (calculate_wave_transmission_Kt_impermeable (Fin H) (Fin T) h' (Fin Rc) (Fin B) (Fin c) C1_impermeable) = Ok (Fin K2) ->
  K1 <= K2.
Proof.
  intros until K2. intros HH HT HB Hc. unfold C1_permeable.
  rewrite C29_formula, C29_impermeable_formula by (assumption || lra). intros [= <-] [= <-].
  assert (Hx : 0 < iribarren g0 H T (1 / c)) by (apply iribarren_pos; auto; rpos).
  apply clip_mono. unfold dangremond.
  pose proof (damped_pos 0.5 _ ltac:(lra) Hx) as Hd.
  apply Rplus_le_compat_l. apply Rmult_le_compat_r; [lra|].
  apply Rmult_le_compat_r; [left; apply Rpower_pos|lra].
Qed.

(** Lengths scaled by [l] and times by [sqrt l]. *)
Theorem C29_scale_invariant : forall l C H T h Rc B c b,
  0 < l -> 0 < H -> 0 < T -> 0 < B -> c <> 0 ->
  value (calculate_wave_transmission_Kt_permeable (Fin (l * H)) (Fin (sqrt l * T)) (Fin (l * h))
           (Fin (l * Rc)) (Fin (l * B)) (Fin c) (Fin C) b)
  = value (calculate_wave_transmission_Kt_permeable (Fin H) (Fin T) (Fin h) (Fin Rc) (Fin B) (Fin c) (Fin C) b).
Proof.
  intros. rewrite !C29_formula by (assumption || rpos).
  unfold iribarren. rewrite steepness_froude by auto. unfold dangremond.
  replace (l * Rc / (l * H)) with (Rc / H) by (field; lra).
  replace (l * B / (l * H)) with (B / H) by (field; lra). reflexivity.
Qed.

(** Warnings: the coefficient is judged before it is clipped, so a warning
    about it is issued exactly when the limits changed it; the other three are
    the limits of the data set. *)
Theorem C29_warnings : forall C H T h Rc B c, 0 < H -> 0 < T -> 0 < B -> c <> 0 -> h <> 0 ->
  flagged
    [ Range "Transmission coefficient Kt" "D'Angremond et al. (1996)"
        (dangremond C H Rc B (iribarren g0 H T (1 / c))) 0.075 0.8;
      Range "Wave steepness s0p (dataset limit)" "D'Angremond et al. (1996)" (steepness g0 H T) 0 0.06;
      Range "Relative water depth Hsi/h (dataset limit)" "D'Angremond et al. (1996)" (H / h) 0 0.54;
      Range "Relative crest level Rc/Hsi (dataset limit)" "D'Angremond et al. (1996)" (Rc / H) (-(2.5)) 2.5 ]
    (warns (calculate_wave_transmission_Kt_permeable (Fin H) (Fin T) (Fin h) (Fin Rc) (Fin B) (Fin c) (Fin C) true)).
Proof.
  intros. unfold calculate_wave_transmission_Kt_permeable, check_validity, g_default. cbv zeta.
  rewrite raw_fin by assumption. fold g0. rewrite steepness_fin by auto. nfin. flags.
Qed.

Theorem C29_no_check_no_warnings : forall C H T h Rc B c,
  warns (calculate_wave_transmission_Kt_permeable H T h Rc B c C false) = [].
Proof. reflexivity. Qed.

(** Crest at the water level, as wide as the wave is high, Iribarren number 2. *)
Example C29_example : forall h b, exists c,
  value (calculate_wave_transmission_Kt_permeable (Fin 2) (Fin 6) h (Fin 0) (Fin 2) (Fin c) C1_permeable b)
  = Ok (Fin (0.64 * (1 - exp (-1))))
  /\ iribarren g0 2 6 (1 / c) = 2.
Proof.
  intros. set (s := steepness g0 2 6).
  assert (Hs : 0 < sqrt s) by (apply sqrt_lt_R0, steepness_pos; auto; lra).
  assert (Hc : 0 < / (2 * sqrt s)) by rpos.
  assert (E : iribarren g0 2 6 (1 / / (2 * sqrt s)) = 2).
  { unfold iribarren. fold s. field. lra. }
  exists (/ (2 * sqrt s)). split; [|exact E]. unfold C1_permeable. rewrite C29_formula by lra. rewrite E.
  do 2 f_equal. unfold dangremond. replace (2 / 2) with 1 by lra. rewrite Rpower_1_base.
  replace (-(0.5) * 2) with (-1) by lra.
  pose proof (exp_increasing (-1) 0 ltac:(lra)). rewrite exp_0 in *.
  assert (exp (-1) <= 1 / 2). { replace (-1) with (- (1)) by lra. rewrite exp_Ropp. pose proof (exp_ineq1 1 ltac:(lra)). apply Rle_trans with (/ 2); [apply Rinv_le_contravar; lra|lra]. }
  pose proof (exp_pos (-1)).
  unfold clip, Rmax, Rmin. repeat destruct Rle_dec; lra.
Qed.
