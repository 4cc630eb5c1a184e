(** Property C16, continued: the procedure for the influence factor of a berm. *)
From Coq Require Import Reals Lra Bool.
From Verif.Lib Require Import Num Monad RTac NTac.
From Verif.Spec Require Import Waves Taw.
From Verif.Model Require Import CoreUtility CorePhysics RunupTAW2002.
From Verif.Model Require RunupEurotop2018.
From Verif.Proofs Require Import Core Taw.
From Verif.Props Require Import RunupTAW.
Open Scope R_scope.

(** TAW (2002) *)
Theorem C16_berm_procedure : forall H T cot B L db gbeta gf c1 c2 c3 c4 gb (bf : bool), 0 < H -> 0 < T -> 0 < cot ->
  let xi := iribarren g0 H T (1 / cot) in
  let runup gb := (if bf then taw_runup 1.65 4 1.5 1 gb gf gbeta xi else taw_runup c1 c2 c3 c4 gb gf gbeta xi) * H in
  (value (iteration_procedure_gamma_b (Fin H) (Fin T) (Fin cot) (Fin B) (Fin L) (Fin db) (Fin gbeta) (Fin c1) (Fin c2) (Fin c3) (Fin c4) bf (Fin gf))
   = Ok (Fin gb) <-> berm_procedure runup H B L db gb).
Proof.
  intros H T cot B L db gbeta gf c1 c2 c3 c4 gb bf HH HT HC xi runup.
  assert (R : forall x, exists fl, value (runup_upto depth_limit (Fin H) (Fin T) (Fin gbeta) (Fin x) (Fin gf) (Fin cot) (Fin c1) (Fin c2) (Fin c3) (Fin c4) bf) = Ok (Fin (runup x), fl)).
  { intros x. unfold runup_upto, depth_limit. rewrite (runup_simple H T gbeta) by (try assumption; left; reflexivity). fold xi.
    eexists. destruct bf; reflexivity. }
  unfold iteration_procedure_gamma_b, iteration_procedure_gamma_b_body. nfin.
  destruct (Reqb B 0) eqn:E1; [|destruct (Reqb L 0) eqn:E2]; cbn [orb].
  - apply Reqb_iff in E1. mval. split; [intros E; injection E as <-; constructor; auto|].
    inversion 1; subst; [reflexivity|congruence].
  - apply Reqb_iff in E2. mval. split; [intros E; injection E as <-; constructor; auto|].
    inversion 1; subst; [reflexivity|congruence].
  - assert (N1 : B <> 0) by (intros ->; rewrite Reqb_true in E1 by reflexivity; discriminate).
    assert (N2 : L <> 0) by (intros ->; rewrite Reqb_true in E2 by reflexivity; discriminate).
    mval. destruct (R 1) as (f1 & V1). rewrite V1. mval.
    destruct (berm_fin H (runup 1) db B L HH N2) as (r1 & P1 & _ & ->). destruct (R (taw_berm B L r1)) as (f2 & V2). rewrite V2. mval.
    destruct (berm_fin H (runup (taw_berm B L r1)) db B L HH N2) as (r2 & P2 & _ & ->).
    split.
    + intros E; injection E as <-. econstructor; eassumption.
    + inversion 1 as [[?|?]|r1' r2' _ _ Q1 Q2]; subst; try congruence.
      rewrite (berm_position_fun _ _ _ _ _ Q1 P1) in Q2. rewrite (berm_position_fun _ _ _ _ _ Q2 P2). reflexivity.
Qed.

(** EurOtop (2018) *)
Theorem C16_berm_procedure_eurotop : forall H T cot B L db gbeta gf c1 c2 c3 c4 gb (bf : bool), 0 < H -> 0 < T -> 0 < cot ->
  let xi := iribarren g0 H T (1 / cot) in
  let runup gb := (if bf then taw_runup 1.65 4 1.5 1 gb gf gbeta xi else taw_runup c1 c2 c3 c4 gb gf gbeta xi) * H in
  (value (RunupEurotop2018.iteration_procedure_gamma_b (Fin H) (Fin T) (Fin cot) (Fin B) (Fin L) (Fin db) (Fin gbeta) (Fin c1) (Fin c2) (Fin c3) (Fin c4) bf (Fin gf))
   = Ok (Fin gb) <-> berm_procedure runup H B L db gb).
Proof.
  intros H T cot B L db gbeta gf c1 c2 c3 c4 gb bf HH HT HC xi runup.
  unfold RunupEurotop2018.iteration_procedure_gamma_b. destruct bf; cbn [RunupEurotop2018.check_best_fit].
  - exact (C16_berm_procedure H T cot B L db gbeta gf 1.65 4 1.5 1 gb true HH HT HC).
  - exact (C16_berm_procedure H T cot B L db gbeta gf c1 c2 c3 c4 gb false HH HT HC).
Qed.

(** It always ends, in a factor between 0.6 and 1. *)
Theorem C16_berm_factor_range : forall runup H B L db, 0 < H ->
  exists gb, berm_procedure runup H B L db gb /\ 0.6 <= gb <= 1 /\ forall gb', berm_procedure runup H B L db gb' -> gb' = gb.
Proof.
  intros runup H B L db HH.
  destruct (Req_dec B 0) as [E|N1]; [|destruct (Req_dec L 0) as [E|N2]].
  - exists 1. split; [constructor; auto|]. split; [lra|]. inversion 1; [reflexivity|congruence].
  - exists 1. split; [constructor; auto|]. split; [lra|]. inversion 1; [reflexivity|congruence].
  - destruct (berm_position_exists H (runup 1) db HH) as (r1 & P1 & _).
    destruct (berm_position_exists H (runup (taw_berm B L r1)) db HH) as (r2 & P2 & _).
    exists (taw_berm B L r2). split; [econstructor; eassumption|]. split.
    + unfold taw_berm. split; [apply Rmax_l|apply Rmax_lub; [lra|apply Rmin_l]].
    + inversion 1 as [[?|?]|r1' r2' _ _ Q1 Q2]; subst; try congruence.
      rewrite (berm_position_fun _ _ _ _ _ Q1 P1) in Q2. rewrite (berm_position_fun _ _ _ _ _ Q2 P2). reflexivity.
Qed.

(** A berm of 4 m out of 12 m at still water: two thirds, whatever the run-up. *)
Example C16_berm_example : value (iteration_procedure_gamma_b #2 #6 #4 #4 #12 #0 #1 c1_default RunupTAW2002.c2_default c3_default c4_default false #1)
  = Ok (Fin (2 / 3)).
Proof.
  apply (C16_berm_procedure 2 6 4 4 12 0 1 1 1.75 4.3 1.6 1 (2 / 3) false ltac:(lra) ltac:(lra) ltac:(lra)).
  set (xi := iribarren g0 2 6 (1 / 4)).
  assert (X : 1 <= xi).
  { unfold xi, iribarren, steepness, g0. pose proof PI_RGT_0. pose proof PI_4.
    set (s := 2 * PI * 2 / (9.81 * 6 ^ 2)). assert (S : 0 < s <= 0.0625).
    { unfold s. lra. }
    assert (0 < sqrt s) by (apply sqrt_lt_R0; lra).
    assert (sqrt s <= 0.25). { replace 0.25 with (sqrt (0.25 ^ 2)) by (apply sqrt_pow2; lra). apply sqrt_le_1_alt. lra. }
    apply (Rmult_le_reg_r (sqrt s)); [assumption|]. unfold Rdiv. rewrite (Rmult_assoc (1 * / 4)), Rinv_l by lra. lra. }
  assert (Z : forall gb, 0 <= gb -> 0 <= taw_runup 1.75 4.3 1.6 1 gb 1 1 xi * 2).
  { intros gb G. apply Rmult_le_pos; [|lra]. unfold taw_runup. assert (F : taw_roughness 1 gb xi = 1) by (unfold taw_roughness; destruct (Rle_dec 1.8 (gb * xi)); [destruct (Rle_dec (gb * xi) 10)|]; lra).
    rewrite F. apply Rmin_glb; unfold taw_slope_runup, taw_max_runup; [apply Rmult_le_pos; lra|].
    assert (1 <= sqrt xi) by (rewrite <- sqrt_1; apply sqrt_le_1_alt; assumption).
    assert (IV : / sqrt xi <= / 1) by (apply Rinv_le_contravar; lra). rewrite Rinv_1 in IV. unfold Rdiv. set (v := / sqrt xi) in *. clearbody v. lra. }
  assert (P : forall z, 0 <= z -> berm_position 2 z 0 0).
  { intros z Hz. replace 0 with (0.5 - 0.5 * cos (PI * 0 / (2 * 2))) at 2. - constructor; lra. - replace (PI * 0 / (2 * 2)) with 0 by (field; lra). rewrite cos_0. lra. }
  assert (T : taw_berm 4 12 0 = 2 / 3) by (unfold taw_berm; rewrite Rmin_right, Rmax_right by lra; lra).
  cbv zeta iota. fold xi. rewrite <- T. apply (two_steps _ _ _ _ _ 0 0); try lra; apply P, Z; [lra|rewrite T; lra].
Qed.
