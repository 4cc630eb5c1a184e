(** Property C80, transmission and set-up: what larger and longer waves do behind and in front of a low structure. *)
From Coq Require Import Reals Lra List Bool String Psatz.
From Verif.Lib Require Import Num Monad RTac NTac.
From Verif.Spec Require Import Waves Dispersion Transmission Response.
From Verif.Model Require Import CoreUtility CorePhysics DAngremond1996.
From Verif.Model Require Briganti2003 Goda1967 VanGent2023 VanGent2024Setup.
From Verif.Proofs Require Import Core Dispersion Response Loads.
From Verif.Props Require Import TransDAngremond ResponseWall.
From Verif.Props Require TransBriganti TransGoda TransVanGent SetupVanGent.
Open Scope R_scope.

Lemma clip_higher P lo hi x y : higher P x y -> higher (P /\ clip lo hi x < hi /\ lo < clip lo hi y) (clip lo hi x) (clip lo hi y).
Proof.
  intros [L S]. split; [apply clip_mono; assumption|]. intros (p & U & V). specialize (S p). unfold clip, Rmax, Rmin in *. repeat destruct Rle_dec; lra.
Qed.
Lemma freeboard_higher H Rc Rc' c : 0 < H -> 0 < c -> Rc' <= Rc -> higher (Rc' < Rc) (- c * (Rc / H)) (- c * (Rc' / H)).
Proof.
  intros. assert (0 < c / H) by (apply Rdiv_lt_0_compat; lra). replace (- c * (Rc / H)) with (c / H * - Rc) by (field; lra). replace (- c * (Rc' / H)) with (c / H * - Rc') by (field; lra).
  split; [apply Rmult_le_compat_l; lra|intros; apply Rmult_lt_compat_l; lra].
Qed.
Lemma damped_higher P k x y : 0 < k -> higher P x y -> higher P (1 - exp (- k * x)) (1 - exp (- k * y)).
Proof.
  intros K [L S]. assert (k * x <= k * y) by (apply Rmult_le_compat_l; lra). split.
  - pose proof (exp_le (- k * y) (- k * x) ltac:(lra)). lra.
  - intros p. specialize (S p). assert (k * x < k * y) by (apply Rmult_lt_compat_l; lra). pose proof (exp_increasing (- k * y) (- k * x) ltac:(lra)). lra.
Qed.
Lemma width_higher H B B' a : 0 < H -> 0 < a -> 0 < B' <= B -> higher (B' < B) (Rpower (B / H) (- a)) (Rpower (B' / H) (- a)).
Proof.
  intros HH A [P L]. assert (0 < B' / H) by (apply Rdiv_lt_0_compat; lra).
  assert (S : B' < B -> Rpower (B / H) (- a) < Rpower (B' / H) (- a)) by (intros; apply Rpower_lt_base_neg; [lra|assumption|apply Rmult_lt_compat_r; [apply Rinv_0_lt_compat|]; assumption]).
  split; [|exact S]. destruct L as [L| ->]; [left; auto|lra].
Qed.

(** ** D'Angremond et al. (1996) *)
Theorem C80_dangremond_period : forall H T T' Rc Rc' B B' cot cot' C C' (h h' : num) b b',
  0 < H -> 0 < T <= T' -> Rc' <= Rc -> 0 < B' <= B -> 0 < cot' <= cot -> 0 < C <= C' ->
  exists K K',
    value (calculate_wave_transmission_Kt_permeable (Fin H) (Fin T) h (Fin Rc) (Fin B) (Fin cot) (Fin C) b) = Ok (Fin K)
    /\ value (calculate_wave_transmission_Kt_permeable (Fin H) (Fin T') h' (Fin Rc') (Fin B') (Fin cot') (Fin C') b') = Ok (Fin K')
    /\ 0.075 <= K /\ K' <= 0.8
    /\ higher ((T < T' \/ cot' < cot \/ Rc' < Rc \/ B' < B \/ C < C') /\ K < 0.8 /\ 0.075 < K') K K'.
Proof.
  intros H T T' Rc Rc' B B' cot cot' C C' h h' b b' HH HT HR HB Hc HC.
  eexists _, _. split; [apply C29_formula; lra|]. split; [apply C29_formula; lra|].
  split; [apply clip_range; lra|]. split; [apply clip_range; lra|].
  apply clip_higher. unfold dangremond. pose proof (xi_period_slope H T T' cot cot' HH HT Hc) as X.
  assert (XP : 0 < iribarren g0 H T (1 / cot)) by (apply iribarren_pos; try lra; [exact g0_pos|apply Rdiv_lt_0_compat; lra]).
  pose proof (damped_pos 0.5 _ ltac:(lra) XP) as DP. pose proof (damped_higher _ 0.5 _ _ ltac:(lra) X) as D. pose proof (freeboard_higher H Rc Rc' 0.4 HH ltac:(lra) HR) as F.
  pose proof (width_higher H B B' 0.31 HH ltac:(lra) HB) as W. assert (WP : 0 < Rpower (B / H) (- (0.31))) by apply exp_pos.
  pose proof (higher_mul _ _ _ _ _ _ (proj1 HC) WP (higher_self _ _ (proj2 HC)) W) as M1. assert (MP1 : 0 < C * Rpower (B / H) (- (0.31))) by (apply Rmult_lt_0_compat; lra).
  pose proof (higher_mul _ _ _ _ _ _ MP1 (proj1 DP) M1 D) as M2. refine (higher_weaken _ _ _ _ _ (higher_add _ _ _ _ _ _ F M2)). tauto.
Qed.

Lemma e_bound : 2.625 < exp 1.
Proof.
  assert (D : forall x y u, exp y = exp x * exp x -> 0 < u -> u < exp x -> u * u < exp y) by (intros x y u -> U L; apply Rmult_le_0_lt_compat; lra).
  assert (E : forall x y, y = x + x -> exp y = exp x * exp x) by (intros x y ->; apply exp_plus).
  assert (E0 : 1 + 1 / 16 < exp (1 / 16)) by (apply exp_ineq1, Rgt_not_eq; lra). pose proof (D _ _ (1 + 1 / 16) (E (1 / 16) (1 / 8) ltac:(lra)) ltac:(lra) E0) as E1.
  pose proof (D _ _ 1.1289 (E (1 / 8) (1 / 4) ltac:(lra)) ltac:(lra) ltac:(lra)) as E2. pose proof (D _ _ 1.2744 (E (1 / 4) (1 / 2) ltac:(lra)) ltac:(lra) ltac:(lra)) as E3.
  pose proof (D _ _ 1.624 (E (1 / 2) 1 ltac:(lra)) ltac:(lra) ltac:(lra)) as E4. lra.
Qed.
Lemma exp_tangent c : 1 <= c -> 2.62 * c < exp c.
Proof.
  intros C. replace c with (1 + (c - 1)) at 2 by ring. rewrite exp_plus. pose proof e_bound. assert (1 + (c - 1) <= exp (c - 1)).
  { destruct (Req_dec (c - 1) 0) as [-> |N]; [rewrite exp_0; lra|left; apply exp_ineq1; assumption]. }
  assert (exp 1 * c <= exp 1 * exp (c - 1)) by (apply Rmult_le_compat_l; lra). nra.
Qed.
(** The damping with the Iribarren number is slower than the power of the crest width. *)
Lemma damped_power x y : 1 <= x < y -> Rpower y (- (0.62)) * (1 - exp (- y)) < Rpower x (- (0.62)) * (1 - exp (- x)).
Proof.
  intros [X L]. assert (D : forall c, 1 <= c -> 0 < 1 - exp (- c)). { intros c C. assert (exp (- c) < 1); [|lra]. rewrite <- exp_0. apply exp_increasing. lra. }
  assert (G : ln (1 - exp (- y)) - 0.62 * ln y < ln (1 - exp (- x)) - 0.62 * ln x).
  { destruct (MVT_cor2 (fun c => ln (1 - exp (- c)) - 0.62 * ln c) (fun c => / (1 - exp (- c)) * (exp (- c)) - 0.62 * / c) x y L) as (c & E & C).
    - intros c C. apply derivable_pt_lim_minus; [|apply derivable_pt_lim_scal, derivable_pt_lim_ln; lra].
      apply (derivable_pt_lim_comp (fun c => 1 - exp (- c)) ln); [|apply derivable_pt_lim_ln, D; lra].
      replace (exp (- c)) with (0 - exp (- c) * (- (1))) by ring. apply derivable_pt_lim_minus; [apply derivable_pt_lim_const|].
      apply (derivable_pt_lim_comp Ropp exp); [apply derivable_pt_lim_opp, derivable_pt_lim_id|apply derivable_pt_lim_exp].
    - cbv beta in E. assert (/ (1 - exp (- c)) * exp (- c) - 0.62 * / c < 0); [|nra].
      pose proof (exp_tangent c ltac:(lra)) as T. pose proof (D c ltac:(lra)) as DC. assert (EI : exp (- c) * exp c = 1) by (rewrite <- exp_plus, Rplus_opp_l; apply exp_0).
      pose proof (exp_pos (- c)) as EP. apply (Rmult_lt_reg_r ((1 - exp (- c)) * c)); [apply Rmult_lt_0_compat; lra|].
      replace ((/ (1 - exp (- c)) * exp (- c) - 0.62 * / c) * ((1 - exp (- c)) * c)) with (exp (- c) * c - 0.62 * (1 - exp (- c))) by (dec; field; lra).
      rewrite Rmult_0_l. assert (exp (- c) * (2.62 * c) < 1) by (rewrite <- EI; apply Rmult_lt_compat_l; assumption).
      assert (exp (- c) * c < 1 / 2.62) by lra. assert (exp (- c) * 1 <= exp (- c) * c) by (apply Rmult_le_compat_l; lra). lra. }
  apply ln_lt_inv; [apply Rmult_lt_0_compat; [apply exp_pos|apply D; lra]|apply Rmult_lt_0_compat; [apply exp_pos|apply D; lra]|].
  rewrite !ln_mult by first [apply exp_pos | apply D; lra]. unfold Rpower. rewrite !ln_exp. lra.
Qed.

Lemma damped_width H T B cot : 0 < H -> 0 < T -> 0 < B -> 0 < cot ->
  let K := iribarren g0 1 T (1 / cot) in let x := 0.5 * iribarren g0 H T (1 / cot) in
  Rpower (B / H) (- (0.31)) * (1 - exp (- (0.5) * iribarren g0 H T (1 / cot))) = Rpower (4 * B / (K * K)) (- (0.31)) * (Rpower x (- (0.62)) * (1 - exp (- x))).
Proof.
  intros HH HT HB Hc K x. assert (CT : 0 < 1 / cot) by (apply Rdiv_lt_0_compat; lra).
  assert (KP : 0 < K) by (apply iribarren_pos; try lra; exact g0_pos). assert (XP : 0 < iribarren g0 H T (1 / cot)) by (apply iribarren_pos; try lra; exact g0_pos).
  assert (E : iribarren g0 H T (1 / cot) = K / sqrt H) by (apply iribarren_height; [exact g0_pos|lra|lra]).
  assert (S : 0 < sqrt H) by (apply sqrt_lt_R0; lra). assert (SH : sqrt H * sqrt H = H) by (apply sqrt_sqrt; lra).
  replace (- (0.5) * iribarren g0 H T (1 / cot)) with (- x) by (unfold x; ring). rewrite <- Rmult_assoc. f_equal.
  assert (XP' : 0 < x) by (unfold x; lra).
  replace (Rpower x (- (0.62))) with (Rpower x (- (0.31)) * Rpower x (- (0.31))) by (rewrite <- Rpower_plus; f_equal; lra).
  assert (0 < 4 * B / (K * K)) by (apply Rdiv_lt_0_compat; [lra|apply Rmult_lt_0_compat; assumption]).
  rewrite !Rpower_mult_distr by first [assumption|apply Rmult_lt_0_compat; assumption]. f_equal. unfold x. rewrite E. rewrite <- SH at 1. set (q := sqrt H) in *. clearbody q K. dec. field. split; lra.
Qed.

(** Higher waves and a crest above water, for Iribarren numbers from 2. *)
Theorem C80_dangremond_height : forall H H' T Rc B cot C (h : num) b,
  0 < H < H' -> 0 < T -> 0 <= Rc -> 0 < B -> 0 < cot -> 0 < C -> 2 <= iribarren g0 H' T (1 / cot) ->
  exists K K',
    value (calculate_wave_transmission_Kt_permeable (Fin H) (Fin T) h (Fin Rc) (Fin B) (Fin cot) (Fin C) b) = Ok (Fin K)
    /\ value (calculate_wave_transmission_Kt_permeable (Fin H') (Fin T) h (Fin Rc) (Fin B) (Fin cot) (Fin C) b) = Ok (Fin K')
    /\ higher (K < 0.8 /\ 0.075 < K') K K'.
Proof.
  intros H H' T Rc B cot C h b HH HT HR HB Hc HC X.
  eexists _, _. split; [apply C29_formula; lra|]. split; [apply C29_formula; lra|].
  assert (L : dangremond C H Rc B (iribarren g0 H T (1 / cot)) < dangremond C H' Rc B (iribarren g0 H' T (1 / cot))).
  { unfold dangremond. assert (Rc / H' <= Rc / H) by (apply Rmult_le_compat_l; [assumption|apply Rinv_le_contravar; lra]).
    assert (Rpower (B / H) (- (0.31)) * (1 - exp (- (0.5) * iribarren g0 H T (1 / cot))) < Rpower (B / H') (- (0.31)) * (1 - exp (- (0.5) * iribarren g0 H' T (1 / cot)))).
    { rewrite !damped_width by lra. apply Rmult_lt_compat_l; [apply exp_pos|]. apply damped_power. split; [lra|]. apply Rmult_lt_compat_l; [lra|].
      rewrite (iribarren_height g0 H), (iribarren_height g0 H') by (try exact g0_pos; lra).
      assert (0 < iribarren g0 1 T (1 / cot)) by (apply iribarren_pos; try lra; [exact g0_pos|apply Rdiv_lt_0_compat; lra]).
      apply Rmult_lt_compat_l; [assumption|]. assert (0 < sqrt H) by (apply sqrt_lt_R0; lra). assert (sqrt H < sqrt H') by (apply sqrt_lt_1_alt; lra). apply Rinv_lt_contravar; [apply Rmult_lt_0_compat|]; lra. }
    rewrite !(Rmult_assoc C). assert (C * (Rpower (B / H) (- (0.31)) * (1 - exp (- (0.5) * iribarren g0 H T (1 / cot)))) < C * (Rpower (B / H') (- (0.31)) * (1 - exp (- (0.5) * iribarren g0 H' T (1 / cot))))) by (apply Rmult_lt_compat_l; assumption).
    lra. }
  refine (higher_weaken _ _ _ _ _ (clip_higher True 0.075 0.8 _ _ (conj (Rlt_le _ _ L) (fun _ => L)))). tauto.
Qed.

(** For small Iribarren numbers a higher wave may be transmitted less. *)
Theorem C80_dangremond_height_refuted : exists H H' T Rc B cot, 0 < H < H' /\ 0 < T /\ 0 <= Rc /\ 0 < B /\ 0 < cot /\
  let K H := value (calculate_wave_transmission_Kt_permeable (Fin H) (Fin T) NaN (Fin Rc) (Fin B) (Fin cot) C1_permeable false) in
  larger (K H') (K H).
Proof.
  pose proof g0_pos as G0. pose proof (iribarren_pos g0 1 1 (1 / 1) G0 ltac:(lra) ltac:(lra) ltac:(lra)) as KP. set (k := iribarren g0 1 1 (1 / 1)) in *.
  assert (L2 : 0 < ln 2) by (rewrite <- ln_1; apply ln_increasing; lra). assert (HT : 0 < 2 * ln 2 / k) by (apply Rdiv_lt_0_compat; lra).
  exists 1, 4, (2 * ln 2 / k), 0, 1, 1. do 5 (split; [lra|]). cbv beta zeta. unfold C1_permeable. rewrite !C29_formula by lra.
  eexists _, _. split; [reflexivity|]. split; [reflexivity|].
  assert (X1 : iribarren g0 1 (2 * ln 2 / k) (1 / 1) = 2 * ln 2) by (rewrite (iribarren_period g0 1 _) by lra; fold k; field; lra).
  assert (S : sqrt 4 = 2) by (replace 4 with (2 * 2) by lra; apply sqrt_square; lra).
  assert (X2 : iribarren g0 4 (2 * ln 2 / k) (1 / 1) = ln 2) by (rewrite (iribarren_height g0 4 _) by lra; rewrite X1, S; field).
  rewrite X1, X2. unfold dangremond.
  assert (E1 : exp (- (0.5) * (2 * ln 2)) = / 2) by (replace (- (0.5) * (2 * ln 2)) with (- ln 2) by lra; rewrite exp_Ropp, exp_ln by lra; reflexivity).
  assert (E2 : exp (- (0.5) * ln 2) * exp (- (0.5) * ln 2) = / 2) by (rewrite <- exp_plus; replace (- (0.5) * ln 2 + - (0.5) * ln 2) with (- ln 2) by lra; rewrite exp_Ropp, exp_ln by lra; reflexivity).
  rewrite E1. pose proof (exp_pos (- (0.5) * ln 2)) as EP. set (e := exp (- (0.5) * ln 2)) in *. clearbody e. assert (EB : 0.7 < e < 0.71) by nra.
  assert (P1 : Rpower (1 / 1) (- (0.31)) = 1) by (replace (1 / 1) with 1 by field; unfold Rpower; rewrite ln_1, Rmult_0_r; apply exp_0). rewrite P1.
  assert (P4 : 1 < Rpower (1 / 4) (- (0.31)) < 1.6).
  { unfold Rpower. replace (1 / 4) with (/ 4) by lra. rewrite ln_Rinv by lra. replace (- (0.31) * - ln 4) with (0.31 * ln 4) by ring. fold (Rpower 4 0.31).
    assert (Q : Rpower 4 0.31 * Rpower 4 0.31 * Rpower 4 0.31 < 4).
    { rewrite <- !Rpower_plus. rewrite <- (Rpower_1 4) at 2 by lra. apply Rpower_lt; lra. }
    assert (1 < Rpower 4 0.31) by (rewrite <- (Rpower_O 4) at 1 by lra; apply Rpower_lt; lra). split; [assumption|]. set (r := Rpower 4 0.31) in *. clearbody r. apply Rnot_le_lt. intros N.
    assert (1.6 * 1.6 <= r * r) by (apply Rmult_le_compat; lra). assert (1.6 * 1.6 * 1.6 <= r * r * r) by (apply Rmult_le_compat; lra). lra. }
  set (p := Rpower (1 / 4) (- (0.31))) in *. clearbody p. replace (0 / 1) with 0 by field. replace (0 / 4) with 0 by field.
  assert (Q : 0.18 < 0.64 * p * (1 - e) < 0.31). { assert (p * (1 - e) < 1.6 * 0.3) by (apply Rmult_le_0_lt_compat; lra). assert (1 * (1 - e) < p * (1 - e)) by (apply Rmult_lt_compat_r; lra). lra. }
  replace (- (0.4) * 0 + 0.64 * p * (1 - e)) with (0.64 * p * (1 - e)) by ring. replace (- (0.4) * 0 + 0.64 * 1 * (1 - / 2)) with 0.32 by lra.
  set (q := 0.64 * p * (1 - e)) in *. clearbody q. unfold clip. rewrite !(Rmin_right 0.8), !(Rmax_right 0.075) by lra. lra.
Qed.

(** ** Briganti et al. (2003) *)
Theorem C80_briganti_narrow : forall H T T' Rc Rc' B B' cot cot',
  0 < H -> 0 < T <= T' -> Rc' <= Rc -> 0 < B' <= B -> 0 < cot' <= cot -> B < 10 * H ->
  exists K K',
    value (Briganti2003.calculate_wave_transmission_Kt (Fin H) (Fin T) (Fin Rc) (Fin B) (Fin cot)) = Ok (Fin K)
    /\ value (Briganti2003.calculate_wave_transmission_Kt (Fin H) (Fin T') (Fin Rc') (Fin B') (Fin cot')) = Ok (Fin K')
    /\ higher ((T < T' \/ cot' < cot \/ Rc' < Rc \/ B' < B) /\ K < 0.8 /\ 0.075 < K') K K'.
Proof.
  intros H T T' Rc Rc' B B' cot cot' HH HT HR HB Hc HW.
  destruct (C80_dangremond_period H T T' Rc Rc' B B' cot cot' 0.64 0.64 NaN NaN false false) as (K & K' & E & E' & _ & _ & L); try lra.
  exists K, K'. rewrite !(TransBriganti.C30_narrow_crest_is_DAngremond _ _ NaN _ _ _ false) by lra. split; [exact E|]. split; [exact E'|].
  refine (higher_weaken _ _ _ _ _ L). tauto.
Qed.
Theorem C80_briganti_wide : forall H T T' Rc Rc' B cot cot',
  0 < H -> 0 < T <= T' -> Rc' <= Rc -> 10 * H <= B -> 0 < cot' <= cot ->
  exists K K',
    value (Briganti2003.calculate_wave_transmission_Kt (Fin H) (Fin T) (Fin Rc) (Fin B) (Fin cot)) = Ok (Fin K)
    /\ value (Briganti2003.calculate_wave_transmission_Kt (Fin H) (Fin T') (Fin Rc') (Fin B) (Fin cot')) = Ok (Fin K')
    /\ higher ((T < T' \/ cot' < cot \/ Rc' < Rc) /\ K < briganti_limit H B /\ 0.05 < K') K K'.
Proof.
  intros H T T' Rc Rc' B cot cot' HH HT HR HB Hc.
  eexists _, _. split; [apply TransBriganti.C30_wide_crest; lra|]. split; [apply TransBriganti.C30_wide_crest; lra|].
  apply clip_higher. unfold briganti_wide. pose proof (xi_period_slope H T T' cot cot' HH HT Hc) as X.
  assert (XP : 0 < iribarren g0 H T (1 / cot)) by (apply iribarren_pos; try lra; [exact g0_pos|apply Rdiv_lt_0_compat; lra]).
  pose proof (damped_pos 0.41 _ ltac:(lra) XP) as DP. pose proof (damped_higher _ 0.41 _ _ ltac:(lra) X) as D. pose proof (freeboard_higher H Rc Rc' 0.35 HH ltac:(lra) HR) as F.
  assert (MP1 : 0 < 0.51 * Rpower (B / H) (- (0.65))) by (apply Rmult_lt_0_compat; [lra|apply exp_pos]).
  pose proof (higher_mul _ _ _ _ _ _ MP1 (proj1 DP) (higher_refl _) D) as M2. refine (higher_weaken _ _ _ _ _ (higher_add _ _ _ _ _ _ F M2)). tauto.
Qed.

(** ** Goda et al. (1967) *)
Lemma goda_relative H Rc a b k : 0 < H -> 0 < a -> TransGoda.coefficient (Goda1967.calculate_wave_transmission_Kt (Fin H) (Fin Rc) (Fin a) (Fin b)) k ->
  TransGoda.coefficient (Goda1967.calculate_wave_transmission_Kt (Fin 1) (Fin (Rc / H)) (Fin a) (Fin b)) k.
Proof.
  intros HH Ha E. destruct (TransGoda.C31_three_branches H Rc a b ltac:(lra) Ha) as (B1 & B2 & B3). destruct (TransGoda.C31_three_branches 1 (Rc / H) a b ltac:(lra) Ha) as (D1 & D2 & D3).
  cbv zeta in *. assert (R1 : Rc / H / 1 = Rc / H) by (unfold Rdiv at 1; rewrite Rinv_1, Rmult_1_r; reflexivity). rewrite R1 in D1, D2, D3.
  destruct (Rle_lt_dec (Rc / H) (- a - b)) as [L|L]; [rewrite B1 in E by assumption; rewrite D1 by assumption; exact E|].
  destruct (Rle_lt_dec (Rc / H) (a - b)) as [L'|L']; [rewrite B2 in E by lra; rewrite D2 by lra; exact E|rewrite B3 in E by lra; rewrite D3 by lra; exact E].
Qed.
(** Up to the limit where a remaining 3 percent takes over, higher waves are transmitted more over a crest above water and less over one below. *)
Theorem C80_goda_height : forall H H' Rc a b k k', 0 < H < H' -> 0 < a ->
  TransGoda.coefficient (Goda1967.calculate_wave_transmission_Kt (Fin H) (Fin Rc) (Fin a) (Fin b)) k ->
  TransGoda.coefficient (Goda1967.calculate_wave_transmission_Kt (Fin H') (Fin Rc) (Fin a) (Fin b)) k' ->
  (0 < Rc -> Rc / H <= a - b -> higher (- a - b < Rc / H) k k') /\ (Rc < 0 -> Rc / H' <= a - b -> higher (- a - b < Rc / H') k' k).
Proof.
  intros H H' Rc a b k k' HH Ha E E'. apply goda_relative in E, E'; try lra.
  assert (I : / H' < / H) by (apply Rinv_lt_contravar; [apply Rmult_lt_0_compat|]; lra). split; intros R L.
  - apply (TransGoda.C31_decreasing_below_the_limit 1 (Rc / H') (Rc / H) a b k' k) in E'; try lra; try assumption.
    + destruct E' as [A A']. replace (Rc / H / 1) with (Rc / H) in A' by (field; lra). split; assumption.
    + apply Rmult_lt_compat_l; assumption.
  - apply (TransGoda.C31_decreasing_below_the_limit 1 (Rc / H) (Rc / H') a b k k') in E; try lra; try assumption.
    + destruct E as [A A']. replace (Rc / H' / 1) with (Rc / H') in A' by (field; lra). split; assumption.
    + unfold Rdiv. assert (- Rc * / H' < - Rc * / H) by (apply Rmult_lt_compat_l; lra). lra.
Qed.

(** ** Van Gent et al. (2023) *)
Theorem C80_vangent2023 : forall d s H H' T T' Rc B B', solves_dispersion d -> 0 < H <= H' -> 0 < T <= T' -> 0 < B' <= B ->
  exists K K',
    value (VanGent2023.calculate_wave_transmission_Kt d (Fin H) (Fin T) (Fin Rc) (Fin B) (bw_name s)) = Ok (Fin K)
    /\ value (VanGent2023.calculate_wave_transmission_Kt d (Fin H') (Fin T') (Fin Rc) (Fin B') (bw_name s)) = Ok (Fin K')
    /\ (0 <= Rc -> higher (T < T' \/ B' < B \/ (H < H' /\ 0 < Rc)) K K').
Proof.
  intros d s H H' T T' Rc B B' Hd HH HT HB.
  destruct (TransVanGent.C32_formula d T Hd ltac:(lra)) as (k & K0 & D & F). destruct (TransVanGent.C32_formula d T' Hd ltac:(lra)) as (k' & K0' & D' & F').
  eexists _, _. split; [apply F; lra|]. split; [apply F'; lra|]. intros R. unfold vangent2023. pose proof PI_RGT_0 as PP.
  assert (W : higher (T < T') (2 * PI / T') (2 * PI / T)).
  { split; [apply Rmult_le_compat_l; [lra|apply Rinv_le_contravar; lra]|intros; apply Rmult_lt_compat_l; [lra|apply Rinv_lt_contravar; [apply Rmult_lt_0_compat|]; lra]]. }
  assert (W0 : 0 < 2 * PI / T') by (apply Rdiv_lt_0_compat; lra).
  pose proof (wave_number_lt _ _ _ _ _ _ TransVanGent.depth_pos g0_pos K0' K0 W0 (proj1 W) D' D) as [N N'].
  assert (Q : higher (T < T' \/ B' < B) (B' / (2 * PI / k')) (B / (2 * PI / k))).
  { assert (E : forall b k, 0 < k -> b / (2 * PI / k) = b * k / (2 * PI)) by (intros; field; lra). rewrite !E by assumption. unfold Rdiv.
    assert (IP : 0 < / (2 * PI)) by (apply Rinv_0_lt_compat; lra).
    pose proof (higher_mul _ _ _ _ _ _ (proj1 HB) K0' (higher_self _ _ (proj2 HB)) (conj N N')) as [M M']. split; [apply Rmult_le_compat_r; lra|].
    intros p. apply Rmult_lt_compat_r; [assumption|]. apply M'. destruct p as [p|p]; [right; apply W, p|left; exact p]. }
  assert (Q0 : 0 < B' / (2 * PI / k')) by (apply Rdiv_lt_0_compat; [lra|apply Rdiv_lt_0_compat; lra]).
  assert (P : higher (T < T' \/ B' < B) (Rpower (B' / (2 * PI / k')) 0.75) (Rpower (B / (2 * PI / k)) 0.75)).
  { destruct Q as [Q Q']. split; [apply Rle_Rpower_l; lra|]. intros p. apply Rpower_lt_base; [lra|assumption|exact (Q' p)]. }
  assert (Z : higher (H < H' /\ 0 < Rc) (Rc / H') (Rc / H)).
  { split; [apply Rmult_le_compat_l; [assumption|apply Rinv_le_contravar; lra]|]. intros [p q]. apply Rmult_lt_compat_l; [assumption|apply Rinv_lt_contravar; [apply Rmult_lt_0_compat|]; lra]. }
  set (p := Rpower (B / (2 * PI / k)) 0.75) in *. set (p' := Rpower (B' / (2 * PI / k')) 0.75) in *. clearbody p p'.
  assert (SW : 0 < bw_swing s) by (destruct s; simpl; lra). destruct P as [P P'], Z as [Z Z']. split.
  - assert (tanh (Rc / H' + 3.1 * p' + bw_shift s) <= tanh (Rc / H + 3.1 * p + bw_shift s)).
    { destruct (Req_dec (Rc / H' + 3.1 * p' + bw_shift s) (Rc / H + 3.1 * p + bw_shift s)) as [-> |N0]; [lra|left; apply tanh_lt; lra]. }
    assert (bw_swing s * tanh (Rc / H' + 3.1 * p' + bw_shift s) <= bw_swing s * tanh (Rc / H + 3.1 * p + bw_shift s)) by (apply Rmult_le_compat_l; lra). lra.
  - intros q. assert (q' : (T < T' \/ B' < B) \/ (H < H' /\ 0 < Rc)) by (clear - q; tauto). assert (Rc / H' + 3.1 * p' + bw_shift s < Rc / H + 3.1 * p + bw_shift s) by (destruct q' as [q'|q']; [specialize (P' q')|specialize (Z' q')]; lra).
    assert (bw_swing s * tanh (Rc / H' + 3.1 * p' + bw_shift s) < bw_swing s * tanh (Rc / H + 3.1 * p + bw_shift s)) by (apply Rmult_lt_compat_l; [assumption|apply tanh_lt; assumption]). lra.
Qed.
(** Over a submerged crest higher waves are transmitted less. *)
Theorem C80_vangent2023_submerged : forall d s H H' T Rc B, solves_dispersion d -> 0 < H < H' -> 0 < T -> 0 < B -> Rc < 0 ->
  exists K K',
    value (VanGent2023.calculate_wave_transmission_Kt d (Fin H) (Fin T) (Fin Rc) (Fin B) (bw_name s)) = Ok (Fin K)
    /\ value (VanGent2023.calculate_wave_transmission_Kt d (Fin H') (Fin T) (Fin Rc) (Fin B) (bw_name s)) = Ok (Fin K')
    /\ K' < K.
Proof.
  intros d s H H' T Rc B Hd HH HT HB HR. destruct (TransVanGent.C32_formula d T Hd HT) as (k & K0 & D & F).
  eexists _, _. split; [apply F; lra|]. split; [apply F; lra|]. unfold vangent2023.
  assert (I : / H' < / H) by (apply Rinv_lt_contravar; [apply Rmult_lt_0_compat|]; lra). assert (Rc / H < Rc / H') by (unfold Rdiv; assert (- Rc * / H' < - Rc * / H) by (apply Rmult_lt_compat_l; lra); lra).
  assert (SW : 0 < bw_swing s) by (destruct s; simpl; lra). set (p := Rpower _ _).
  assert (bw_swing s * tanh (Rc / H + 3.1 * p + bw_shift s) < bw_swing s * tanh (Rc / H' + 3.1 * p + bw_shift s)) by (apply Rmult_lt_compat_l; [assumption|apply tanh_lt; lra]). lra.
Qed.

Ltac expos := first [lra | apply exp_pos | apply Rmult_lt_0_compat; expos].
(** ** Set-up in front of the structure, Van Gent (2024) *)
Lemma steepness_split H T : 0 < H -> 0 < T -> ln (steepness g0 H T) = ln (2 * PI / g0) + ln H - 2 * ln T.
Proof.
  intros. pose proof PI_RGT_0. pose proof g0_pos. assert (0 < 2 * PI / g0) by (apply Rdiv_lt_0_compat; lra).
  replace (steepness g0 H T) with (2 * PI / g0 * H * / (T * T)) by (unfold steepness; field; lra).
  assert (0 < T * T) by (apply Rmult_lt_0_compat; lra).
  rewrite !ln_mult, ln_Rinv, ln_mult by first [lra | apply Rmult_lt_0_compat; lra | apply Rinv_0_lt_compat; assumption]. ring.
Qed.
Lemma ratio_split H Rc c : 0 < H -> - c * H < Rc -> ln (Rc / H + c) = ln (Rc + c * H) - ln H.
Proof. intros. replace (Rc / H + c) with ((Rc + c * H) * / H) by (field; lra). rewrite ln_mult, ln_Rinv by (try apply Rinv_0_lt_compat; lra). ring. Qed.
Lemma ln_setup_impermeable H T Rc : 0 < H -> 0 < T -> - (1.6) * H < Rc ->
  0 < setup_impermeable (steepness g0 H T) H Rc * H /\
  ln (setup_impermeable (steepness g0 H T) H Rc * H) = ln 0.34 + 0.4 * ln (2 * PI / g0) - 0.8 * ln T + 3.5 * ln (Rc + 1.6 * H) - 2.1 * ln H.
Proof.
  intros HH HT HR. unfold setup_impermeable, Rpower. split; [expos|].
  rewrite !ln_mult, !ln_exp by expos. rewrite steepness_split, ratio_split by assumption. lra.
Qed.
Lemma ln_setup_permeable H T Rc hc : 0 < H -> 0 < T -> 0 < hc -> - (1.5) * H < Rc ->
  0 < setup_permeable (steepness g0 H T) H Rc hc * H /\
  ln (setup_permeable (steepness g0 H T) H Rc hc * H) = ln 0.22 + 0.2 * ln (2 * PI / g0) - 0.4 * ln T + 1.5 * ln (Rc + 1.5 * H) + 0.4 * ln H - 0.7 * ln hc.
Proof.
  intros HH HT Hh HR. unfold setup_permeable, Rpower. split; [expos|].
  rewrite !ln_mult, !ln_exp by expos. rewrite steepness_split, ratio_split by assumption.
  unfold Rdiv at 2. rewrite ln_mult, ln_Rinv by (try apply Rinv_0_lt_compat; assumption). lra.
Qed.
Lemma weighted_mean t : 0 < t -> t <> 1 -> 0.6 * ln t < ln (0.4 + 0.6 * t).
Proof.
  intros P N. apply exp_lt_inv. rewrite exp_ln by lra. assert (Y : ln t <> 0) by (intros E; apply N; apply ln_inv; [assumption|lra|rewrite ln_1; assumption]).
  set (y := ln t) in *. replace t with (exp y) by (apply exp_ln; assumption). clearbody y.
  assert (E1 : exp y = exp (0.6 * y) * exp (0.4 * y)) by (rewrite <- exp_plus; f_equal; lra). assert (E2 : 1 = exp (0.6 * y) * exp (- (0.6 * y))) by (rewrite <- exp_plus, Rplus_opp_r, exp_0; reflexivity).
  assert (I1 : 1 + 0.4 * y < exp (0.4 * y)) by (apply exp_ineq1; lra). assert (I2 : 1 + - (0.6 * y) < exp (- (0.6 * y))) by (apply exp_ineq1; lra).
  pose proof (exp_pos (0.6 * y)) as EP. rewrite E1. set (e := exp (0.6 * y)) in *. set (a := exp (0.4 * y)) in *. set (b := exp (- (0.6 * y))) in *. clearbody e a b.
  assert (e * 1 < e * (0.4 * b + 0.6 * a)) by (apply Rmult_lt_compat_l; lra). lra.
Qed.
Lemma setup_shape H H' Rc : 0 < H -> 0 < H' -> - (1.6) * H < Rc -> (H < H' /\ Rc <= 16 / 15 * H) \/ (H' < H /\ 16 / 15 * H <= Rc) ->
  3.5 * ln (Rc + 1.6 * H) - 2.1 * ln H < 3.5 * ln (Rc + 1.6 * H') - 2.1 * ln H'.
Proof.
  intros P P' R O. assert (T0 : 0 < H' / H) by (apply Rdiv_lt_0_compat; lra).
  assert (N : H' / H <> 1) by (intros E; assert (H' = H) by (replace H' with (H' / H * H) by (field; lra); rewrite E; ring); lra).
  pose proof (weighted_mean (H' / H) T0 N) as W. unfold Rdiv at 1 in W. rewrite ln_mult, ln_Rinv in W by (try apply Rinv_0_lt_compat; assumption).
  assert (M : (0.4 + 0.6 * (H' / H)) * (Rc + 1.6 * H) <= Rc + 1.6 * H').
  { apply (Rmult_le_reg_r H); [assumption|]. replace ((0.4 + 0.6 * (H' / H)) * (Rc + 1.6 * H) * H) with ((0.4 * H + 0.6 * H') * (Rc + 1.6 * H)) by (field; lra).
    assert (0 <= (H' - H) * (0.64 * H - 0.6 * Rc)) by (destruct O as [[A B]|[A B]]; [apply Rmult_le_pos; lra|replace ((H' - H) * (0.64 * H - 0.6 * Rc)) with ((H - H') * (0.6 * Rc - 0.64 * H)) by ring; apply Rmult_le_pos; lra]). lra. }
  assert (Q : 0 < (0.4 + 0.6 * (H' / H)) * (Rc + 1.6 * H)) by (apply Rmult_lt_0_compat; lra).
  assert (L : ln ((0.4 + 0.6 * (H' / H)) * (Rc + 1.6 * H)) <= ln (Rc + 1.6 * H')) by (destruct M as [M|M]; [left; apply ln_increasing; assumption|rewrite M; lra]).
  rewrite ln_mult in L by lra. lra.
Qed.

(** Impermeable: higher waves give more set-up while the crest is lower than 16/15 times the wave height, and less once it is higher. *)
Theorem C80_setup_impermeable_height : forall H H' T Rc, 0 < H < H' -> 0 < T -> - (1.6) * H < Rc ->
  let d H := value (VanGent2024Setup.calculate_structure_induced_setup_delta_impermeable (Fin H) (Fin T) (Fin Rc)) in
  (Rc <= 16 / 15 * H -> larger (d H) (d H')) /\ (16 / 15 * H' <= Rc -> larger (d H') (d H)).
Proof.
  intros H H' T Rc HH HT HR d. unfold d. rewrite !(fun H A B => proj2 (SetupVanGent.C57_impermeable_formula H T Rc A HT B)) by lra.
  destruct (ln_setup_impermeable H T Rc) as [P E]; try lra. destruct (ln_setup_impermeable H' T Rc) as [P' E']; try lra.
  split; intros L; eexists _, _; (split; [reflexivity|]; split; [reflexivity|]); (split; [assumption|]); apply ln_lt_inv; try assumption; rewrite E, E'.
  - pose proof (setup_shape H H' Rc ltac:(lra) ltac:(lra) HR ltac:(left; lra)). lra.
  - pose proof (setup_shape H' H Rc ltac:(lra) ltac:(lra) ltac:(lra) ltac:(right; lra)). lra.
Qed.
(** Longer waves give less, a higher crest more. *)
Theorem C80_setup_impermeable_period : forall H T T' Rc Rc', 0 < H -> 0 < T' <= T -> - (1.6) * H < Rc -> Rc <= Rc' ->
  grows (T' < T \/ Rc < Rc') (value (VanGent2024Setup.calculate_structure_induced_setup_delta_impermeable (Fin H) (Fin T) (Fin Rc)))
    (value (VanGent2024Setup.calculate_structure_induced_setup_delta_impermeable (Fin H) (Fin T') (Fin Rc'))).
Proof.
  intros H T T' Rc Rc' HH HT HR L. rewrite !(fun H T Rc A D B => proj2 (SetupVanGent.C57_impermeable_formula H T Rc A D B)) by lra.
  destruct (ln_setup_impermeable H T Rc) as [P E]; try lra. destruct (ln_setup_impermeable H T' Rc') as [P' E']; try lra.
  assert (LT : ln T' <= ln T) by (destruct (proj2 HT) as [M|M]; [left; apply ln_increasing; lra|rewrite M; lra]).
  assert (LR : ln (Rc + 1.6 * H) <= ln (Rc' + 1.6 * H)) by (destruct L as [M|M]; [left; apply ln_increasing; lra|rewrite M; lra]).
  assert (S : T' < T \/ Rc < Rc' -> setup_impermeable (steepness g0 H T) H Rc * H < setup_impermeable (steepness g0 H T') H Rc' * H).
  { intros q. apply ln_lt_inv; try assumption. rewrite E, E'. destruct q as [q|q].
    - pose proof (ln_increasing T' T ltac:(lra) q). lra.
    - pose proof (ln_increasing (Rc + 1.6 * H) (Rc' + 1.6 * H) ltac:(lra) ltac:(lra)). lra. }
  split; [|intros q; eexists _, _; split; [reflexivity|]; split; [reflexivity|]; split; [assumption|exact (S q)]].
  eexists _, _; split; [reflexivity|]; split; [reflexivity|]; split; [assumption|].
  destruct (proj2 HT) as [M| ->]; [left; auto|]. destruct L as [M| ->]; [left; auto|lra].
Qed.
(** Permeable: higher waves, higher crests and lower structures below water give more, longer waves less. *)
Theorem C80_setup_permeable : forall H H' T T' Rc Rc' hc hc', 0 < H <= H' -> 0 < T' <= T -> 0 < hc' <= hc -> - (1.5) * H < Rc -> Rc <= Rc' ->
  grows (H < H' \/ T' < T \/ Rc < Rc' \/ hc' < hc) (value (VanGent2024Setup.calculate_structure_induced_setup_delta_permeable (Fin H) (Fin T) (Fin Rc) (Fin hc)))
    (value (VanGent2024Setup.calculate_structure_induced_setup_delta_permeable (Fin H') (Fin T') (Fin Rc') (Fin hc'))).
Proof.
  intros H H' T T' Rc Rc' hc hc' HH HT Hh HR L. rewrite !(fun H T Rc hc A D F B => proj2 (SetupVanGent.C57_permeable_formula H T Rc hc A D F B)) by lra.
  destruct (ln_setup_permeable H T Rc hc) as [P E]; try lra. destruct (ln_setup_permeable H' T' Rc' hc') as [P' E']; try lra.
  assert (LE : forall x y, 0 < x -> x <= y -> ln x <= ln y) by (intros x y X [M|M]; [left; apply ln_increasing; lra|rewrite M; lra]).
  pose proof (LE T' T ltac:(lra) ltac:(lra)) as LT. pose proof (LE hc' hc ltac:(lra) ltac:(lra)) as LH. pose proof (LE H H' ltac:(lra) ltac:(lra)) as LW. pose proof (LE (Rc + 1.5 * H) (Rc' + 1.5 * H') ltac:(lra) ltac:(lra)) as LR.
  assert (S : H < H' \/ T' < T \/ Rc < Rc' \/ hc' < hc -> setup_permeable (steepness g0 H T) H Rc hc * H < setup_permeable (steepness g0 H' T') H' Rc' hc' * H').
  { intros q. apply ln_lt_inv; try assumption. rewrite E, E'. destruct q as [q|[q|[q|q]]].
    - pose proof (ln_increasing H H' ltac:(lra) q). lra.
    - pose proof (ln_increasing T' T ltac:(lra) q). lra.
    - pose proof (ln_increasing (Rc + 1.5 * H) (Rc' + 1.5 * H') ltac:(lra) ltac:(lra)). lra.
    - pose proof (ln_increasing hc' hc ltac:(lra) q). lra. }
  split; [|intros q; eexists _, _; split; [reflexivity|]; split; [reflexivity|]; split; [assumption|exact (S q)]].
  eexists _, _; split; [reflexivity|]; split; [reflexivity|]; split; [assumption|].
  destruct (proj2 HH) as [M| ->]; [left; auto|]. destruct (proj2 HT) as [M| ->]; [left; auto|]. destruct (proj2 Hh) as [M| ->]; [left; auto|]. destruct L as [M| ->]; [left; auto|lra].
Qed.

(** Waves of 1 m and 2 m before a crest 0.5 m above water; waves of 6 s and 10 s over a crest 1 m above water. *)
Example C80_transmission_example :
  larger (value (VanGent2024Setup.calculate_structure_induced_setup_delta_impermeable #1 #6 #0.5)) (value (VanGent2024Setup.calculate_structure_induced_setup_delta_impermeable #2 #6 #0.5))
  /\ larger (value (VanGent2024Setup.calculate_structure_induced_setup_delta_impermeable #2 #6 #3)) (value (VanGent2024Setup.calculate_structure_induced_setup_delta_impermeable #1 #6 #3))
  /\ exists K K',
       value (calculate_wave_transmission_Kt_permeable #2 #6 NaN #1 #10 #2 C1_permeable false) = Ok (Fin K)
       /\ value (calculate_wave_transmission_Kt_permeable #2 #10 NaN #1 #10 #2 C1_permeable false) = Ok (Fin K') /\ K <= K'.
Proof.
  split; [|split].
  - apply (C80_setup_impermeable_height 1 2 6 0.5); lra.
  - apply (C80_setup_impermeable_height 1 2 6 3); lra.
  - destruct (C80_dangremond_period 2 6 10 1 1 10 10 2 2 0.64 0.64 NaN NaN false false) as (K & K' & E & E' & _ & _ & L & _); try lra.
    exists K, K'. split; [exact E|]. split; [exact E'|exact L].
Qed.
