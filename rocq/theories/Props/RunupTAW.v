(** Properties C08 to C12 and C16: wave run-up of TAW (2002). *)
From Coq Require Import Reals Lra Lia List Bool String Psatz FunctionalExtensionality.
From Verif.Lib Require Import Num Monad RTac NTac.
From Verif.Spec Require Import Waves Ranges Reports Taw.
From Verif.Model Require Import CoreUtility CorePhysics RunupTAW2002.
From Verif.Model Require OvertoppingTAW2002.
From Verif.Proofs Require Import Core CheckTac Warns Reports Taw.
Import ListNotations.
Open Scope R_scope.

(** ** C08: oblique waves *)

Lemma oblique_props c : 0 < c -> 80 * c < 1 ->
  (forall b, taw_oblique c (- b) = taw_oblique c b)
  /\ taw_oblique c 0 = 1
  /\ (forall a b, Rabs a < Rabs b -> Rabs b <= 80 -> taw_oblique c b < taw_oblique c a)
  /\ (forall b, 80 <= Rabs b -> taw_oblique c b = 1 - 80 * c)
  /\ (forall b, 1 - 80 * c <= taw_oblique c b <= 1).
Proof.
  intros Hc Hm. unfold taw_oblique. repeat split.
  - intros. rewrite Rabs_Ropp. reflexivity.
  - rewrite Rabs_R0, Rmin_left by lra. lra.
  - intros. rewrite !Rmin_left by lra. nra.
  - intros. rewrite Rmin_right by lra. lra.
  - pose proof (Rmin_r (Rabs b) 80). nra.
  - assert (0 <= Rmin (Rabs b) 80) by (apply Rmin_glb; [apply Rabs_pos|lra]). nra.
Qed.

Theorem C08_runup : exists f : R -> R,
  (forall b, calculate_influence_oblique_waves_gamma_beta (Fin b) c_gamma_beta_default max_angle_default = Fin (f b))
  /\ (forall b, Rabs b <= 80 -> f b = 1 - 0.0022 * Rabs b)
  /\ (forall b, f (- b) = f b)
  /\ f 0 = 1
  /\ (forall a b, Rabs a < Rabs b -> Rabs b <= 80 -> f b < f a)
  /\ (forall b, 80 <= Rabs b -> f b = 0.824)
  /\ (forall b, 0.824 <= f b <= 1).
Proof.
  destruct (oblique_props 0.0022) as (A & B & C & D & E); [lra|lra|].
  exists (taw_oblique 0.0022). split; [intros; apply oblique_fin|].
  split. { intros. unfold taw_oblique. rewrite Rmin_left by assumption. reflexivity. }
  split; [exact A|]. split; [exact B|]. split; [exact C|]. split.
  - intros b Hb. rewrite D by assumption. lra.
  - intros b. specialize (E b). lra.
Qed.

Theorem C08_overtopping : exists f : R -> R,
  (forall b, OvertoppingTAW2002.calculate_influence_oblique_waves_gamma_beta (Fin b)
               OvertoppingTAW2002.c_gamma_beta_default OvertoppingTAW2002.max_angle_default = Fin (f b))
  /\ (forall b, Rabs b <= 80 -> f b = 1 - 0.0033 * Rabs b)
  /\ (forall b, f (- b) = f b)
  /\ f 0 = 1
  /\ (forall a b, Rabs a < Rabs b -> Rabs b <= 80 -> f b < f a)
  /\ (forall b, 80 <= Rabs b -> f b = 0.736)
  /\ (forall b, 0.736 <= f b <= 1).
Proof.
  destruct (oblique_props 0.0033) as (A & B & C & D & E); [lra|lra|].
  exists (taw_oblique 0.0033). split; [intros; apply oblique_fin|].
  split. { intros. unfold taw_oblique. rewrite Rmin_left by assumption. reflexivity. }
  split; [exact A|]. split; [exact B|]. split; [exact C|]. split.
  - intros b Hb. rewrite D by assumption. lra.
  - intros b. specialize (E b). lra.
Qed.

Example C08_example :
  calculate_influence_oblique_waves_gamma_beta #(- 50) c_gamma_beta_default max_angle_default = #0.89
  /\ OvertoppingTAW2002.calculate_influence_oblique_waves_gamma_beta #50
       OvertoppingTAW2002.c_gamma_beta_default OvertoppingTAW2002.max_angle_default = #0.835.
Proof.
  unfold OvertoppingTAW2002.calculate_influence_oblique_waves_gamma_beta.
  split; (etransitivity; [apply oblique_fin|]; f_equal; unfold taw_oblique).
  - rewrite Rabs_left by lra. rewrite Rmin_left by lra. lra.
  - rewrite Rabs_pos_eq by lra. rewrite Rmin_left by lra. lra.
Qed.

(** ** C09: berms *)

(** Whatever the arguments, the factor is missing or between 0.6 and 1. *)
Theorem C09_range : forall Hm0 z2p db B L : num,
  calculate_influence_berm_gamma_b Hm0 z2p db B L = NaN
  \/ exists r, calculate_influence_berm_gamma_b Hm0 z2p db B L = Fin r /\ 0.6 <= r <= 1.
Proof.
  intros. unfold calculate_influence_berm_gamma_b. cbv zeta.
  match goal with |- nmax (nmin ?e _) _ = _ \/ _ => destruct e as [x| | |] end.
  - right. nfin. eexists. split; [reflexivity|]. split; [apply Rmax_r|]. apply Rmax_lub; [apply Rmin_r|lra].
  - right. exists 1. split; [|lra]. change (nmin PInf #1) with #1. nfin. f_equal. apply Rmax_left. lra.
  - right. exists 0.6. split; [|lra]. reflexivity.
  - left. reflexivity.
Qed.

(** With a wave and a berm length it is the published factor. *)
Theorem C09_formula : forall H z db B L r,
  0 < H -> L <> 0 -> berm_position H z db r ->
  calculate_influence_berm_gamma_b (Fin H) (Fin z) (Fin db) (Fin B) (Fin L) = Fin (taw_berm B L r).
Proof.
  intros H z db B L r HH HL P. destruct (berm_fin H z db B L HH HL) as (r' & P' & _ & ->).
  rewrite (berm_position_fun _ _ _ _ _ P P'). reflexivity.
Qed.

(** Every berm has a position. *)
Theorem C09_total : forall H z db, 0 < H -> exists! r, berm_position H z db r.
Proof.
  intros H z db HH. destruct (berm_position_exists H z db HH) as (r & P & _). exists r. split; [assumption|].
  intros r'. apply berm_position_fun. assumption.
Qed.

(** No berm, no influence. *)
Theorem C09_no_berm : forall H z db L, 0 < H -> L <> 0 ->
  calculate_influence_berm_gamma_b (Fin H) (Fin z) (Fin db) #0 (Fin L) = #1.
Proof.
  intros H z db L HH HL. destruct (berm_fin H z db 0 L HH HL) as (r' & P' & _ & ->). f_equal. unfold taw_berm.
  replace (0 / L) with 0 by (field; assumption). replace (1 - 0 * (1 - r')) with 1 by ring.
  rewrite Rmin_left, Rmax_right by lra. reflexivity.
Qed.

(** A berm at still water reduces the run-up most, and a wider berm never less. *)
Lemma berm_mono B L r B' L' r' : 0 <= B / L -> B / L <= B' / L' -> r' <= r <= 1 -> taw_berm B' L' r' <= taw_berm B L r.
Proof.
  intros A C D. unfold taw_berm. apply Rle_max_compat_l. apply Rle_min_compat_l.
  assert (B / L * (1 - r) <= B' / L' * (1 - r')) by (apply Rmult_le_compat; lra). lra.
Qed.

Theorem C09_still_water_best : forall H z db B L, 0 < H -> 0 <= z -> 0 <= B -> 0 < L ->
  exists g0 g, calculate_influence_berm_gamma_b (Fin H) (Fin z) #0 (Fin B) (Fin L) = Fin g0
    /\ calculate_influence_berm_gamma_b (Fin H) (Fin z) (Fin db) (Fin B) (Fin L) = Fin g
    /\ g0 = Rmax 0.6 (1 - B / L) /\ g0 <= g.
Proof.
  intros H z db B L HH Hz HB HL.
  assert (Q : 0 <= B / L) by rpos.
  assert (P0 : berm_position H z 0 0).
  { replace 0 with (0.5 - 0.5 * cos (PI * 0 / (2 * H))) at 2.
    - apply berm_below; lra.
    - replace (PI * 0 / (2 * H)) with 0 by (field; lra). rewrite cos_0. lra. }
  destruct (berm_fin H z db B L HH ltac:(lra)) as (r & P & R & E).
  exists (taw_berm B L 0), (taw_berm B L r).
  rewrite (C09_formula H z 0 B L 0) by (assumption || lra). split; [reflexivity|]. split; [assumption|]. split.
  - unfold taw_berm. f_equal. rewrite Rmin_right by lra. ring.
  - apply berm_mono; lra.
Qed.

Theorem C09_wider_berm : forall H z db c B B', 0 < H -> 0 < c -> 0 <= B <= B' ->
  exists L L' g g',
    value (calculate_berm_length (Fin H) (Fin B) (Fin c) NaN NaN) = Ok (Fin L)
    /\ value (calculate_berm_length (Fin H) (Fin B') (Fin c) NaN NaN) = Ok (Fin L')
    /\ calculate_influence_berm_gamma_b (Fin H) (Fin z) (Fin db) (Fin B) (Fin L) = Fin g
    /\ calculate_influence_berm_gamma_b (Fin H) (Fin z) (Fin db) (Fin B') (Fin L') = Fin g'
    /\ g' <= g.
Proof.
  intros H z db c B B' HH Hc HB. assert (P : 0 < H * c) by rpos.
  unfold calculate_berm_length. rewrite simple_slope, !bind_ret_l. cbv iota. nfin.
  exists (1 * H * c + B + 1 * H * c), (1 * H * c + B' + 1 * H * c).
  destruct (berm_fin H z db B (1 * H * c + B + 1 * H * c) HH ltac:(lra)) as (r & Pr & R & E).
  destruct (berm_fin H z db B' (1 * H * c + B' + 1 * H * c) HH ltac:(lra)) as (r' & Pr' & R' & E').
  rewrite (berm_position_fun _ _ _ _ _ Pr' Pr) in *. eexists. eexists.
  split; [reflexivity|]. split; [reflexivity|]. split; [exact E|]. split; [exact E'|].
  apply berm_mono; [apply Rmult_le_pos; [lra|left; apply Rinv_0_lt_compat; lra]| |lra].
  apply (Rmult_le_reg_r (1 * H * c + B + 1 * H * c)); [lra|]. apply (Rmult_le_reg_r (1 * H * c + B' + 1 * H * c)); [lra|].
  field_simplify; [nra|lra|lra].
Qed.

(** A berm 1 m below still water in waves of 1 m. *)
Example C09_example :
  calculate_influence_berm_gamma_b #1 #2 #1 #4 #10 = #0.8
  /\ calculate_influence_berm_gamma_b #1 #2 #0 #9 #10 = #0.6
  /\ calculate_influence_berm_gamma_b #1 #2 #(-3) #9 #10 = #1.
Proof.
  split; [|split].
  - rewrite (C09_formula 1 2 1 4 10 0.5); [|lra|lra|].
    + f_equal. unfold taw_berm. rewrite Rmin_right by lra. rewrite Rmax_right by lra. lra.
    + replace 0.5 with (0.5 - 0.5 * cos (PI * 1 / (2 * 1))).
      * apply berm_below; lra.
      * replace (PI * 1 / (2 * 1)) with (PI / 2) by field. rewrite cos_PI2. lra.
  - rewrite (C09_formula 1 2 0 9 10 0); [|lra|lra|].
    + f_equal. unfold taw_berm. rewrite Rmin_right by lra. rewrite Rmax_left by lra. lra.
    + replace 0 with (0.5 - 0.5 * cos (PI * 0 / (2 * 1))) at 2.
      * apply berm_below; lra.
      * replace (PI * 0 / (2 * 1)) with 0 by field. rewrite cos_0. lra.
  - rewrite (C09_formula 1 2 (-3) 9 10 1); [|lra|lra|apply berm_out_of_reach; lra].
    f_equal. unfold taw_berm. rewrite Rmin_left by lra. rewrite Rmax_right by lra. lra.
Qed.

(** ** C10: roughness *)

Theorem C10_roughness : forall gf gb xi,
  exists f, calculate_adjusted_influence_roughness_gamma_f (Fin gf) (Fin gb) (Fin xi) = Fin f
    /\ (gb * xi < 1.8 \/ 10 < gb * xi -> f = gf)
    /\ (1.8 <= gb * xi <= 10 -> f = gf + (1 - gf) * ((xi - 1.8) / 8.2))
    /\ (0 < gf <= 1 -> 1.8 <= xi <= 10 -> gf <= f <= 1)
    /\ (gf = 1 -> f = 1).
Proof.
  intros. exists (taw_roughness gf gb xi). split; [apply roughness_fin|]. unfold taw_roughness.
  destruct (Rle_dec 1.8 (gb * xi)); [destruct (Rle_dec (gb * xi) 10)|];
    repeat split; intros; try lra; try nra.
Qed.

(** Below 1 only the berm factor can push it: with a berm it exceeds 1, i.e. the
    roughness increases the run-up. *)
Theorem C10_above_one : forall gf gb xi,
  0 < gf < 1 -> 0.6 <= gb < 1 -> 10 < xi -> gb * xi <= 10 ->
  exists f, calculate_adjusted_influence_roughness_gamma_f (Fin gf) (Fin gb) (Fin xi) = Fin f /\ 1 < f.
Proof.
  intros. exists (taw_roughness gf gb xi). split; [apply roughness_fin|]. unfold taw_roughness.
  destruct (Rle_dec 1.8 (gb * xi)); [|nra]. destruct (Rle_dec (gb * xi) 10); [|lra].
  assert (1 < (xi - 1.8) / 8.2) by lra. nra.
Qed.

Theorem C10_at_most_one_refuted : exists gf gb xi f,
  0 < gf <= 1 /\ 0.6 <= gb <= 1 /\ 0 < xi
  /\ calculate_adjusted_influence_roughness_gamma_f (Fin gf) (Fin gb) (Fin xi) = Fin f /\ 1 < f.
Proof.
  exists 0.5, 0.6, 15. destruct (C10_above_one 0.5 0.6 15) as (f & A & B); [lra..|]. exists f. repeat split; try lra; assumption.
Qed.

(** It jumps where it starts to count if there is a berm, and where it ends. *)
Theorem C10_jumps : forall gf gb, 0 < gf < 1 -> 0.6 <= gb <= 1 ->
  (forall xi, 0 < xi < 1.8 / gb -> calculate_adjusted_influence_roughness_gamma_f (Fin gf) (Fin gb) (Fin xi) = Fin gf)
  /\ (forall xi, 10 / gb < xi -> calculate_adjusted_influence_roughness_gamma_f (Fin gf) (Fin gb) (Fin xi) = Fin gf)
  /\ exists lo hi,
      calculate_adjusted_influence_roughness_gamma_f (Fin gf) (Fin gb) (Fin (1.8 / gb)) = Fin lo
      /\ calculate_adjusted_influence_roughness_gamma_f (Fin gf) (Fin gb) (Fin (10 / gb)) = Fin hi
      /\ gf <= lo /\ (lo = gf <-> gb = 1) /\ 1 <= hi.
Proof.
  intros gf gb Hf Hb.
  assert (E1 : gb * (1.8 / gb) = 1.8) by (field; lra). assert (E2 : gb * (10 / gb) = 10) by (field; lra).
  split; [|split].
  - intros xi Hx. rewrite roughness_fin. f_equal. unfold taw_roughness. destruct (Rle_dec 1.8 (gb * xi)); [|reflexivity]. exfalso. nra.
  - intros xi Hx. rewrite roughness_fin. f_equal. unfold taw_roughness. destruct (Rle_dec 1.8 (gb * xi)); [|reflexivity].
    destruct (Rle_dec (gb * xi) 10); [|reflexivity]. exfalso. nra.
  - rewrite !roughness_fin. eexists. eexists. split; [reflexivity|]. split; [reflexivity|].
    unfold taw_roughness. rewrite E1, E2. destruct (Rle_dec 1.8 1.8); [|lra]. destruct (Rle_dec 1.8 10); [|lra].
    destruct (Rle_dec 10 10); [|lra].
    set (u := 1.8 / gb) in *. set (v := 10 / gb) in *.
    assert (1.8 <= u) by nra. assert (10 <= v) by nra.
    repeat split.
    + nra.
    + intros E. assert (u = 1.8) by nra. nra.
    + intros ->. assert (u = 1.8) by lra. rewrite H1. lra.
    + nra.
Qed.

Example C10_example : calculate_adjusted_influence_roughness_gamma_f #0.6 #0.9 #5.9 = #0.8.
Proof.
  rewrite roughness_fin. f_equal. unfold taw_roughness. destruct (Rle_dec 1.8 (0.9 * 5.9)); [|lra].
  destruct (Rle_dec (0.9 * 5.9) 10); lra.
Qed.

(** ** C11: simple slopes *)

Lemma runup_simple H T gbeta beta' gbeta' gb gf B db cot cu c1 c2 c3 c4 bf :
  0 < H -> 0 < T -> 0 < cot ->
  (gbeta' = Fin gbeta \/ gbeta' = NaN /\ exists b, beta' = Fin b /\ gbeta = taw_oblique 0.0022 b) ->
  let xi := iribarren g0 H T (1 / cot) in
  forall d, value (calculate_wave_runup_height_z2p_upto (S d) (Fin H) (Fin T) beta' gbeta' (Fin gb) (Fin gf) B db (Fin cot) NaN cu
           (Fin c1) (Fin c2) (Fin c3) (Fin c4) bf)
  = Ok (Fin (taw_runup_bf bf c1 c2 c3 c4 gb gf gbeta xi * H), taw_flag bf c1 c2 c3 c4 gb gf gbeta xi).
Proof.
  intros HH HT HC HB xi d. cbn [calculate_wave_runup_height_z2p_upto]. mval.
  rewrite (simple_value _ H T gbeta) by assumption. mval. nfin. reflexivity.
Qed.

Theorem C11_smaller_of_two : forall H T cot gb gf gbeta c1 c2 c3 c4 (beta B db cu : num),
  0 < H -> 0 < T -> 0 < cot ->
  let xi := iribarren g0 H T (1 / cot) in
  let f := taw_roughness gf gb xi in
  let a := taw_slope_runup c1 gb f gbeta xi in
  let b := taw_max_runup c2 c3 c4 f gbeta xi in
  exists reached,
    value (calculate_dimensionless_wave_runup_height_z2p (Fin H) (Fin T) beta (Fin gbeta) (Fin gb) (Fin gf) B db
             (Fin cot) NaN cu (Fin c1) (Fin c2) (Fin c3) (Fin c4) false) = Ok (Fin (Rmin a b), reached)
    /\ value (calculate_wave_runup_height_z2p (Fin H) (Fin T) beta (Fin gbeta) (Fin gb) (Fin gf) B db
             (Fin cot) NaN cu (Fin c1) (Fin c2) (Fin c3) (Fin c4) false) = Ok (Fin (Rmin a b * H), reached)
    /\ (reached = true <-> b <= a).
Proof.
  intros. exists (taw_flag false c1 c2 c3 c4 gb gf gbeta xi). split; [|split].
  - unfold calculate_dimensionless_wave_runup_height_z2p. rewrite (simple_value _ H T gbeta) by (try assumption; left; reflexivity). reflexivity.
  - unfold calculate_wave_runup_height_z2p, depth_limit. rewrite (runup_simple H T gbeta) by (try assumption; left; reflexivity). reflexivity.
  - unfold taw_flag. cbn [coefs]. fold f a b. rewrite Reqb_iff. unfold Rmin. destruct (Rle_dec a b); split; lra.
Qed.

(** With the angle instead of its factor. *)
Theorem C11_angle : forall H T cot gb gf beta c1 c2 c3 c4 (B db cu : num) bf,
  0 < H -> 0 < T -> 0 < cot ->
  value (calculate_wave_runup_height_z2p (Fin H) (Fin T) (Fin beta) NaN (Fin gb) (Fin gf) B db
             (Fin cot) NaN cu (Fin c1) (Fin c2) (Fin c3) (Fin c4) bf)
  = value (calculate_wave_runup_height_z2p (Fin H) (Fin T) NaN (Fin (taw_oblique 0.0022 beta)) (Fin gb) (Fin gf) B db
             (Fin cot) NaN cu (Fin c1) (Fin c2) (Fin c3) (Fin c4) bf).
Proof.
  intros. unfold calculate_wave_runup_height_z2p, depth_limit.
  rewrite (runup_simple H T (taw_oblique 0.0022 beta)) by first [assumption|right; split; [reflexivity|exists beta; split; reflexivity]].
  rewrite (runup_simple H T (taw_oblique 0.0022 beta)) by (try assumption; left; reflexivity). reflexivity.
Qed.

(** A supplied factor takes precedence over the angle. *)
Theorem C11_factor_first : forall H T cot gb gf beta gbeta c1 c2 c3 c4 (B db cu : num) bf,
  0 < H -> 0 < T -> 0 < cot ->
  value (calculate_wave_runup_height_z2p (Fin H) (Fin T) beta (Fin gbeta) (Fin gb) (Fin gf) B db
             (Fin cot) NaN cu (Fin c1) (Fin c2) (Fin c3) (Fin c4) bf)
  = value (calculate_wave_runup_height_z2p (Fin H) (Fin T) NaN (Fin gbeta) (Fin gb) (Fin gf) B db
             (Fin cot) NaN cu (Fin c1) (Fin c2) (Fin c3) (Fin c4) bf).
Proof.
  intros. unfold calculate_wave_runup_height_z2p, depth_limit.
  rewrite !(runup_simple H T gbeta) by (try assumption; left; reflexivity). reflexivity.
Qed.

(** Best fit replaces the coefficients of the caller, whatever the arguments. *)
Lemma iterations_best_fit rec H T cd cu B db gf gbeta tol n :
  (forall H T gbeta gb gf cot, rec H T gbeta gb gf cot #1.65 #4 #1.5 #1 true = rec H T gbeta gb gf cot #1.65 #4 #1.5 #1 false) ->
  forall z1 z0, z2p_iterations rec H T cd cu B db gf gbeta #1.65 #4 #1.5 #1 true tol n z1 z0
  = z2p_iterations rec H T cd cu B db gf gbeta #1.65 #4 #1.5 #1 false tol n z1 z0.
Proof.
  intros R. induction n; intros; cbn [z2p_iterations]; [reflexivity|]. destruct (ngt _ _); [|reflexivity].
  f_equal. apply functional_extensionality. intros L. rewrite R. f_equal. apply functional_extensionality. intros [z fl]. apply IHn.
Qed.

Lemma body_best_fit rec H T beta gbeta gb gf B db cot cd cu c1 c2 c3 c4 :
  (forall H T gbeta gb gf cot, rec H T gbeta gb gf cot #1.65 #4 #1.5 #1 true = rec H T gbeta gb gf cot #1.65 #4 #1.5 #1 false) ->
  dimensionless_body rec H T beta gbeta gb gf B db cot cd cu c1 c2 c3 c4 true
  = dimensionless_body rec H T beta gbeta gb gf B db cot cd cu #1.65 #4 #1.5 #1 false.
Proof.
  intros R. unfold dimensionless_body, iteration_procedure_z2p_body, iteration_procedure_gamma_b_body. cbn [best_fit_coefficients].
  apply f_equal. apply functional_extensionality. intros cg. cbv zeta. apply f_equal. apply functional_extensionality. intros cs.
  rewrite iterations_best_fit by exact R. apply f_equal. apply functional_extensionality. intros ca.
  rewrite R.
  apply (f_equal (fun x => bind x _)). destruct (isnan gb); [|reflexivity]. apply f_equal. apply functional_extensionality. intros L.
  destruct (_ || _)%bool; [reflexivity|]. apply f_equal. apply functional_extensionality. intros [z fl]. rewrite R. reflexivity.
Qed.

Theorem C11_best_fit : forall H T beta gbeta gb gf B db cot cd cu c1 c2 c3 c4 : num,
  calculate_wave_runup_height_z2p H T beta gbeta gb gf B db cot cd cu c1 c2 c3 c4 true
  = calculate_wave_runup_height_z2p H T beta gbeta gb gf B db cot cd cu #1.65 #4 #1.5 #1 false.
Proof.
  intros. unfold calculate_wave_runup_height_z2p, depth_limit. revert H T beta gbeta gb gf B db cot cd cu c1 c2 c3 c4.
  generalize 300%nat. induction n; [reflexivity|]. intros. cbn [calculate_wave_runup_height_z2p_upto].
  rewrite body_best_fit; [reflexivity|]. intros. apply IHn.
Qed.

(** Froude scaling: lengths by [l], times by [sqrt l]. *)
Theorem C11_froude : forall l H T cot gb gf gbeta c1 c2 c3 c4 (beta B db B' db' cu : num) bf,
  0 < l -> 0 < H -> 0 < T -> 0 < cot ->
  exists z reached,
    value (calculate_wave_runup_height_z2p (Fin H) (Fin T) beta (Fin gbeta) (Fin gb) (Fin gf) B db
             (Fin cot) NaN cu (Fin c1) (Fin c2) (Fin c3) (Fin c4) bf) = Ok (Fin z, reached)
    /\ value (calculate_wave_runup_height_z2p (Fin (l * H)) (Fin (sqrt l * T)) beta (Fin gbeta) (Fin gb) (Fin gf) B' db'
             (Fin cot) NaN cu (Fin c1) (Fin c2) (Fin c3) (Fin c4) bf) = Ok (Fin (l * z), reached).
Proof.
  intros. unfold calculate_wave_runup_height_z2p, depth_limit.
  assert (0 < l * H) by rpos. assert (0 < sqrt l * T) by rpos.
  rewrite (runup_simple H T gbeta) by (try assumption; left; reflexivity).
  rewrite (runup_simple (l * H) (sqrt l * T) gbeta) by (try assumption; left; reflexivity).
  assert (E : iribarren g0 (l * H) (sqrt l * T) (1 / cot) = iribarren g0 H T (1 / cot)).
  { unfold iribarren. rewrite steepness_froude by (try assumption; apply g0_pos). reflexivity. }
  rewrite E. eexists. eexists. split; [reflexivity|]. do 2 f_equal. f_equal. ring.
Qed.

(** The run-up is positive if the waves are not too short for the slope ... *)
Theorem C11_positive : forall H T cot gb gf gbeta (beta B db cu : num),
  0 < H -> 0 < T -> 0 < cot -> 0 < gb <= 1 -> 0 < gf <= 1 -> 0 < gbeta ->
  let xi := iribarren g0 H T (1 / cot) in
  0.14 <= xi ->
  exists z reached,
    value (calculate_wave_runup_height_z2p (Fin H) (Fin T) beta (Fin gbeta) (Fin gb) (Fin gf) B db
             (Fin cot) NaN cu c1_default c2_default c3_default c4_default false) = Ok (Fin z, reached)
    /\ 0 < z <= 4.3 * taw_roughness gf gb xi * gbeta * H.
Proof.
  intros H T cot gb gf gbeta beta B db cu HH HT HC Hgb Hgf Hbeta xi HX.
  unfold c1_default, c2_default, c3_default, c4_default.
  destruct (C11_smaller_of_two H T cot gb gf gbeta 1.75 4.3 1.6 1 beta B db cu HH HT HC) as (r & _ & E & _).
  fold xi in E. eexists. exists r. split; [exact E|].
  set (f := taw_roughness gf gb xi).
  assert (F : 0 < f).
  { unfold f, taw_roughness. destruct (Rle_dec 1.8 (gb * xi)) as [A|]; [|lra]. destruct (Rle_dec (gb * xi) 10); [|lra].
    assert (1.8 <= xi) by nra. assert (0 <= (xi - 1.8) / 8.2) by lra. nra. }
  assert (0 < gb) by lra.
  assert (S : sqrt 0.14 <= sqrt xi) by (apply sqrt_le_1_alt; assumption).
  assert (S2 : 0.374 <= sqrt 0.14). { replace 0.374 with (sqrt (0.374 ^ 2)) by (apply sqrt_pow2; lra). apply sqrt_le_1_alt. lra. }
  assert (0 < sqrt xi) by lra.
  assert (Q : 0 < 1.6 / sqrt xi < 4.3).
  { split; [apply Rdiv_lt_0_compat; lra|]. apply (Rmult_lt_reg_r (sqrt xi)); [assumption|]. field_simplify; lra. }
  assert (U : taw_max_runup 4.3 1.6 1 f gbeta xi <= 4.3 * f * gbeta).
  { unfold taw_max_runup. assert (0 < f * gbeta) by rpos. nra. }
  assert (V : 0 < taw_max_runup 4.3 1.6 1 f gbeta xi). { unfold taw_max_runup. assert (0 < 4.3 - 1.6 / sqrt xi) by lra. rpos. }
  assert (W : 0 < taw_slope_runup 1.75 gb f gbeta xi). { unfold taw_slope_runup. rpos. }
  split.
  - apply Rmult_lt_0_compat; [|assumption]. apply Rmin_glb_lt; assumption.
  - apply Rmult_le_compat_r; [lra|]. eapply Rle_trans; [apply Rmin_r|exact U].
Qed.

Lemma period_of s H : 0 < s -> 0 < H -> steepness g0 H (sqrt (2 * PI * H / (g0 * s))) = s.
Proof.
  intros. pose proof PI_RGT_0. pose proof g0_pos. unfold steepness. rewrite pow2_sqrt by (left; rpos). field. repeat split; rpos.
Qed.

(** ... but for waves on a very gentle slope it is negative. *)
Theorem C11_positive_refuted : exists H T cot z reached,
  0 < H /\ 0 < T /\ 0 < cot
  /\ value (calculate_wave_runup_height_z2p (Fin H) (Fin T) #0 NaN #1 #1 #0 #0
             (Fin cot) NaN NaN c1_default c2_default c3_default c4_default false) = Ok (Fin z, reached)
  /\ z < 0.
Proof.
  pose proof PI_RGT_0. pose proof g0_pos. set (T := sqrt (2 * PI * 1 / (g0 * 0.04))).
  assert (0 < T) by (apply sqrt_lt_R0; rpos).
  assert (X : iribarren g0 1 T (1 / 500) = 0.01).
  { unfold iribarren, T. rewrite period_of by lra. replace 0.04 with (0.2 ^ 2) by lra. rewrite sqrt_pow2 by lra. lra. }
  unfold c1_default, c2_default, c3_default, c4_default.
  destruct (C11_smaller_of_two 1 T 500 1 1 (taw_oblique 0.0022 0) 1.75 4.3 1.6 1 NaN #0 #0 NaN) as (r & _ & E & _); [lra|assumption|lra|].
  rewrite X in E. exists 1, T, 500. eexists. exists r. split; [lra|]. split; [assumption|]. split; [lra|].
  split. { rewrite C11_angle by (assumption || lra). exact E. }
  assert (O : taw_oblique 0.0022 0 = 1) by (unfold taw_oblique; rewrite Rabs_R0, Rmin_left; lra).
  assert (R : taw_roughness 1 1 0.01 = 1) by (unfold taw_roughness; destruct (Rle_dec 1.8 (1 * 0.01)); lra).
  rewrite O, R. unfold taw_slope_runup, taw_max_runup.
  assert (S : sqrt 0.01 = 0.1) by (replace 0.01 with (0.1 ^ 2) by lra; apply sqrt_pow2; lra). rewrite S.
  unfold Rmin. destruct (Rle_dec _ _); lra.
Qed.

(** Steepness 0.04 on a slope of 1:2.5 in waves of 2 m. *)
Example C11_example :
  value (calculate_wave_runup_height_z2p #2 (Fin (sqrt (2 * PI * 2 / (g0 * 0.04)))) #0 NaN #0.8 #0.6 #0 #0
             #2.5 NaN NaN c1_default c2_default c3_default c4_default false) = Ok (#3.36, false).
Proof.
  pose proof PI_RGT_0. pose proof g0_pos. set (T := sqrt (2 * PI * 2 / (g0 * 0.04))).
  assert (0 < T) by (apply sqrt_lt_R0; rpos).
  assert (X : iribarren g0 2 T (1 / 2.5) = 2).
  { unfold iribarren, T. rewrite period_of by lra. replace 0.04 with (0.2 ^ 2) by lra. rewrite sqrt_pow2 by lra. lra. }
  unfold c1_default, c2_default, c3_default, c4_default. rewrite C11_angle by (assumption || lra).
  destruct (C11_smaller_of_two 2 T 2.5 0.8 0.6 (taw_oblique 0.0022 0) 1.75 4.3 1.6 1 NaN #0 #0 NaN) as (r & _ & E & F); [lra|assumption|lra|].
  rewrite E. rewrite X in *.
  assert (O : taw_oblique 0.0022 0 = 1) by (unfold taw_oblique; rewrite Rabs_R0, Rmin_left; lra).
  assert (R : taw_roughness 0.6 0.8 2 = 0.6) by (unfold taw_roughness; destruct (Rle_dec 1.8 (0.8 * 2)); lra).
  rewrite O, R in *. unfold taw_slope_runup, taw_max_runup in *.
  assert (S : 1.4 < sqrt 2). { replace 1.4 with (sqrt (1.4 ^ 2)) by (apply sqrt_pow2; lra). apply sqrt_lt_1; lra. }
  assert (Q : 1.6 / sqrt 2 < 1.2). { apply (Rmult_lt_reg_r (sqrt 2)); [lra|]. field_simplify; lra. }
  assert (r = false). { destruct r; [|reflexivity]. exfalso. pose proof (proj1 F eq_refl). lra. }
  subst. do 2 f_equal. f_equal. rewrite Rmin_left by lra. lra.
Qed.

(** ** C12: the iteration for composite slopes *)

(** The run-up functions call one another one level deep only. *)
Theorem C12_depth : forall d H T beta gbeta gb gf B db cot cd cu c1 c2 c3 c4 bf,
  calculate_wave_runup_height_z2p_upto (S (S d)) H T beta gbeta gb gf B db cot cd cu c1 c2 c3 c4 bf
  = calculate_wave_runup_height_z2p H T beta gbeta gb gf B db cot cd cu c1 c2 c3 c4 bf.
Proof.
  intros. unfold calculate_wave_runup_height_z2p, depth_limit.
  change (calculate_wave_runup_height_z2p_upto (S (S d))) with
    (fun Hm0 Tmm10 beta gamma_beta gamma_b gamma_f B_berm db cot_alpha cot_alpha_down cot_alpha_up c1 c2 c3 c4 use_best_fit =>
      ('(z2p_diml, max_reached) <- dimensionless_body (runup_upto (S d)) Hm0 Tmm10 beta gamma_beta gamma_b gamma_f B_berm db
        cot_alpha cot_alpha_down cot_alpha_up c1 c2 c3 c4 use_best_fit ;; ret ((z2p_diml * Hm0)%num, max_reached))).
  change (calculate_wave_runup_height_z2p_upto 300) with
    (fun Hm0 Tmm10 beta gamma_beta gamma_b gamma_f B_berm db cot_alpha cot_alpha_down cot_alpha_up c1 c2 c3 c4 use_best_fit =>
      ('(z2p_diml, max_reached) <- dimensionless_body (runup_upto (S 298)) Hm0 Tmm10 beta gamma_beta gamma_b gamma_f B_berm db
        cot_alpha cot_alpha_down cot_alpha_up c1 c2 c3 c4 use_best_fit ;; ret ((z2p_diml * Hm0)%num, max_reached))).
  cbv beta. rewrite (depth_irrelevant d 298). reflexivity.
Qed.

Lemma bounded_runup d H T gbeta gb gf cot c1 c2 c3 c4 bf : bounded (runup_upto (S d) H T gbeta gb gf cot c1 c2 c3 c4 bf).
Proof.
  rewrite (depth_irrelevant d 0). unfold runup_upto. cbn [calculate_wave_runup_height_z2p_upto].
  apply bounded_bind; [|intros [z fl]; apply bounded_ret].
  rewrite (body_simple _ (fun _ _ _ _ _ _ _ _ _ _ _ => raise ValueError)). apply bounded_body. discriminate.
Qed.

Theorem C12_no_recursion_error : forall H T beta gbeta gb gf B db cot cd cu c1 c2 c3 c4 bf,
  value (calculate_wave_runup_height_z2p H T beta gbeta gb gf B db cot cd cu c1 c2 c3 c4 bf) <> Err RecursionError.
Proof.
  intros. rewrite <- (C12_depth 0). apply bounded_bind; [|intros [z fl]; apply bounded_ret].
  apply bounded_body. intros. apply (bounded_runup 0).
Qed.

(** One step: the run-up for the average slope and the berm factor that go with
    run-up [z0]. *)
Definition runup_step (H T cd cu B db gf gbeta c1 c2 c3 c4 : num) (bf : bool) (z0 z1 : num) : Prop :=
  exists L reached,
    value (calculate_berm_length H B NaN cd cu) = Ok L
    /\ value (calculate_wave_runup_height_z2p H T NaN gbeta (calculate_influence_berm_gamma_b H z0 db B L) gf #0 #0
                (determine_average_slope H z0 cd cu B db) NaN NaN c1 c2 c3 c4 bf) = Ok (z1, reached).
Definition settled (tol z0 z1 : num) : Prop := ngt (nabs (z1 - z0)%num) tol = false.

Lemma iterations_spec H T cd cu B db gf gbeta c1 c2 c3 c4 bf tol z n : forall z1 z0,
  ngt (nabs (z1 - z0)%num) tol = true ->
  (value (z2p_iterations (runup_upto depth_limit) H T cd cu B db gf gbeta c1 c2 c3 c4 bf tol (S n) z1 z0) = Ok z
   <-> exists m y, (m <= n)%nat
        /\ moves (runup_step H T cd cu B db gf gbeta c1 c2 c3 c4 bf) (settled tol) m z1 y
        /\ runup_step H T cd cu B db gf gbeta c1 c2 c3 c4 bf y z
        /\ (m = n \/ settled tol y z)).
Proof.
  set (step := runup_step H T cd cu B db gf gbeta c1 c2 c3 c4 bf).
  assert (ST : forall z1 z2, step z1 z2 <-> exists L fl, value (calculate_berm_length H B NaN cd cu) = Ok L
     /\ value (runup_upto depth_limit H T gbeta (calculate_influence_berm_gamma_b H z1 db B L) gf (determine_average_slope H z1 cd cu B db) c1 c2 c3 c4 bf) = Ok (z2, fl)) by (intros; reflexivity).
  assert (FN : forall a b b', step a b -> step a b' -> b = b').
  { intros a b b' (L & fl & E1 & E2) (L' & fl' & E1' & E2'). rewrite E1 in E1'. injection E1' as <-. rewrite E2 in E2'. congruence. }
  assert (UN : forall n z1 z0, ngt (nabs (z1 - z0)%num) tol = true ->
    (value (z2p_iterations (runup_upto depth_limit) H T cd cu B db gf gbeta c1 c2 c3 c4 bf tol (S n) z1 z0) = Ok z
     <-> exists z2, step z1 z2 /\ value (z2p_iterations (runup_upto depth_limit) H T cd cu B db gf gbeta c1 c2 c3 c4 bf tol n z2 z1) = Ok z)).
  { intros k z1 z0 M. cbn [z2p_iterations]. rewrite M. mval. split.
    - destruct (value (calculate_berm_length H B NaN cd cu)) as [L|e] eqn:EL; [|discriminate]. mval.
      destruct (value (runup_upto depth_limit H T gbeta _ gf _ c1 c2 c3 c4 bf)) as [[z2 fl]|e] eqn:ER; [|discriminate].
      intros E. exists z2. split; [apply ST; exists L, fl; split; [reflexivity|exact ER]|exact E].
    - intros (z2 & S2 & E). destruct (proj1 (ST _ _) S2) as (L & fl & E1 & E2). rewrite E1. mval. rewrite E2. exact E. }
  induction n; intros z1 z0 M; rewrite UN by exact M.
  - cbn [z2p_iterations]. split.
    + intros (z2 & S2 & E). injection E as ->. exists 0%nat, z1. split; [lia|]. split; [constructor|]. split; [exact S2|]. left. reflexivity.
    + intros (m & y & Hm & Hy & S2 & _). assert (m = 0%nat) by lia. subst. inversion Hy; subst. exists z. split; [exact S2|reflexivity].
  - split.
    + intros (z2 & S2 & E). destruct (ngt (nabs (z2 - z1)%num) tol) eqn:M2.
      * apply (IHn z2 z1 M2) in E as (m & y & Hm & Hy & Sy & Hs). exists (S m), y. split; [lia|].
        split. { econstructor; [exact S2| |exact Hy]. unfold settled. rewrite M2. discriminate. }
        split; [exact Sy|]. destruct Hs; [left; lia|right; assumption].
      * cbn [z2p_iterations] in E. rewrite M2 in E. injection E as ->. exists 0%nat, z1. split; [lia|]. split; [constructor|].
        split; [exact S2|]. right. exact M2.
    + intros (m & y & Hm & Hy & Sy & Hs). inversion Hy as [|m' a b c Sb Nb Hb]; subst.
      * destruct Hs as [Hs|Hs]; [discriminate|]. exists z. split; [exact Sy|]. cbn [z2p_iterations]. unfold settled in Hs. rewrite Hs. reflexivity.
      * exists b. split; [exact Sb|]. unfold settled in Nb. destruct (ngt (nabs (b - z1)%num) tol) eqn:M2; [|congruence].
        apply (IHn b z1 M2). exists m', y. split; [lia|]. split; [exact Hb|]. split; [exact Sy|].
        destruct Hs; [left; lia|right; assumption].
Qed.

(** The procedure takes steps from 1.5 Hm0 until one of them moves by no more
    than the tolerance, and at most max_iter + 1. *)
Theorem C12_iteration : forall H (T cd cu B db gf gbeta c1 c2 c3 c4 : num) bf tol max_iter z,
  0 < tol ->
  (value (iteration_procedure_z2p (Fin H) T cd cu B db gf gbeta c1 c2 c3 c4 bf (Fin tol) max_iter) = Ok z
   <-> exists n z0, (n <= max_iter)%nat
        /\ moves (runup_step (Fin H) T cd cu B db gf gbeta c1 c2 c3 c4 bf) (settled (Fin tol)) n (Fin (1.5 * H)) z0
        /\ runup_step (Fin H) T cd cu B db gf gbeta c1 c2 c3 c4 bf z0 z
        /\ (n = max_iter \/ settled (Fin tol) z0 z)).
Proof.
  intros. unfold iteration_procedure_z2p, iteration_procedure_z2p_body. cbv zeta. apply iterations_spec.
  nfin. apply Rltb_true. replace (1.5 * H - (1.5 * H + 2 * tol)) with (- (2 * tol)) by ring. rewrite Rabs_Ropp, Rabs_pos_eq; lra.
Qed.

(** A zero tolerance does not ask for more accuracy: the first guess is returned. *)
Theorem C12_zero_tolerance : forall H (T cd cu B db gf gbeta c1 c2 c3 c4 : num) bf max_iter,
  iteration_procedure_z2p (Fin H) T cd cu B db gf gbeta c1 c2 c3 c4 bf #0 max_iter = ret (Fin (1.5 * H)).
Proof.
  intros. unfold iteration_procedure_z2p, iteration_procedure_z2p_body. cbn [z2p_iterations]. nfin.
  rewrite Rltb_false; [reflexivity|]. replace (1.5 * H - (1.5 * H + 2 * 0)) with 0 by ring. rewrite Rabs_R0. lra.
Qed.

(** With a given berm factor, the run-up on a composite slope is that on a simple
    slope with the average gradient the procedure ends with. *)
Theorem C12_composite : forall (H T gbeta gb gf B db cot c1 c2 c3 c4 z c : num) cd cu (bf : bool),
  gbeta <> NaN -> gb <> NaN -> c <> NaN ->
  value (iteration_procedure_z2p H T (Fin cd) (Fin cu) B db gf gbeta
           (if bf then #1.65 else c1) (if bf then #4 else c2) (if bf then #1.5 else c3) (if bf then #1 else c4)
           bf tolerance_default max_iter_default) = Ok z ->
  determine_average_slope H z (Fin cd) (Fin cu) B db = c ->
  value (calculate_wave_runup_height_z2p H T NaN gbeta gb gf B db cot (Fin cd) (Fin cu) c1 c2 c3 c4 bf)
  = value (calculate_wave_runup_height_z2p H T NaN gbeta gb gf B db c NaN NaN c1 c2 c3 c4 bf).
Proof.
  intros H T gbeta gb gf B db cot c1 c2 c3 c4 z c cd cu bf Hg Hb Hc Hz Ha.
  unfold calculate_wave_runup_height_z2p, depth_limit.
  change (calculate_wave_runup_height_z2p_upto 300) with
    (fun Hm0 Tmm10 beta gamma_beta gamma_b gamma_f B_berm db cot_alpha cot_alpha_down cot_alpha_up c1 c2 c3 c4 use_best_fit =>
      ('(z2p_diml, max_reached) <- dimensionless_body (runup_upto (S 298)) Hm0 Tmm10 beta gamma_beta gamma_b gamma_f B_berm db
        cot_alpha cot_alpha_down cot_alpha_up c1 c2 c3 c4 use_best_fit ;; ret ((z2p_diml * Hm0)%num, max_reached))).
  cbv beta. rewrite (depth_irrelevant 298 299). change (runup_upto 300) with (runup_upto depth_limit).
  mval. replace (value (dimensionless_body (runup_upto depth_limit) H T NaN gbeta gb gf B db cot (Fin cd) (Fin cu) c1 c2 c3 c4 bf))
    with (value (dimensionless_body (runup_upto depth_limit) H T NaN gbeta gb gf B db c NaN NaN c1 c2 c3 c4 bf)); [reflexivity|].
  unfold iteration_procedure_z2p in Hz. unfold dimensionless_body. unfold best_fit_coefficients.
  assert (G : check_calculate_gamma_beta NaN gbeta = ret false) by (destruct gbeta; try reflexivity; congruence).
  assert (K : check_composite_slope c NaN NaN = ret false) by (destruct c; try reflexivity; congruence).
  destruct bf; rewrite !G, !bind_ret_l, K, composite_slope, !bind_ret_l; cbv iota zeta;
    (replace (isnan gb) with false by (destruct gb; try reflexivity; congruence));
    rewrite !bind_ret_l; mval; rewrite Hz; mval; rewrite Ha; reflexivity.
Qed.

(** ** C16: a simple slope without a berm factor *)
Theorem C16_runup_fails : forall H T beta gbeta gf B db cot cu c1 c2 c3 c4 bf,
  value (calculate_wave_runup_height_z2p H T beta gbeta NaN gf B db cot NaN cu c1 c2 c3 c4 bf) = Err ValueError
  /\ value (calculate_dimensionless_wave_runup_height_z2p H T beta gbeta NaN gf B db cot NaN cu c1 c2 c3 c4 bf) = Err ValueError.
Proof.
  intros.
  assert (E : value (calculate_dimensionless_wave_runup_height_z2p H T beta gbeta NaN gf B db cot NaN cu c1 c2 c3 c4 bf) = Err ValueError).
  { unfold calculate_dimensionless_wave_runup_height_z2p, dimensionless_body. destruct (best_fit_coefficients bf c1 c2 c3 c4) as [[[a b] c] d].
    mval. unfold check_calculate_gamma_beta. destruct (isnan beta && isnan gbeta)%bool; [reflexivity|].
    destruct (isnan gbeta); mval; (unfold check_composite_slope; destruct cot; reflexivity). }
  split; [|exact E].
  unfold calculate_wave_runup_height_z2p, depth_limit. cbn [calculate_wave_runup_height_z2p_upto]. mval.
  unfold calculate_dimensionless_wave_runup_height_z2p in E. erewrite (body_simple _ (runup_upto depth_limit)). rewrite E. reflexivity.
Qed.

(** ** C58 *)
Definition taw_runup_ranges (H T gf gb gbeta cot : num) : list xrange :=
  let F := "TAW (2002)"%string in
  [ XRange "Influence factor for a berm gamma_b" F gb #0.6 #1;
    XRange "Influence factor for oblique wave incidence gamma_beta" F gbeta #0.7 #1;
    XRange "Influence factor for surface roughness gamma_f" F gf #0.5 #1;
    XRange "Wave steepness smm10" F (calculate_wave_steepness_s H T g_default) #0.001 #0.07;
    XRange "Iribarren number ksi_mm10" F (calculate_Iribarren_number_ksi H T cot) #0.4 #20 ].

Theorem C58_taw_runup : forall H T beta gbeta gb gf B db cot cu c1 c2 c3 c4 bf,
  gbeta <> NaN -> gb <> NaN -> cot <> NaN ->
  reported (taw_runup_ranges H T gf gb gbeta cot)
    (warns (calculate_dimensionless_wave_runup_height_z2p H T beta gbeta gb gf B db cot NaN cu c1 c2 c3 c4 bf)).
Proof.
  intros H T beta gbeta gb gf B db cot cu c1 c2 c3 c4 bf Hg Hb Hc.
  unfold calculate_dimensionless_wave_runup_height_z2p, dimensionless_body. destruct (best_fit_coefficients bf c1 c2 c3 c4) as [[[a b] c] d].
  assert (G : check_calculate_gamma_beta beta gbeta = ret false) by (destruct beta, gbeta; try reflexivity; congruence).
  assert (K : check_composite_slope cot NaN cu = ret false) by (destruct cot; try reflexivity; congruence).
  rewrite G, bind_ret_l, K, !bind_ret_l. cbv iota zeta.
  replace (isnan gb) with false by (destruct gb; try reflexivity; congruence). rewrite !bind_ret_l.
  unfold taw_runup_ranges, check_validity_range. cbv zeta. reports.
Qed.
