(** Property C37: loads on crest walls, Van Gent and Van der Werf (2019). *)
From Coq Require Import Reals Lra Lia List Bool String Psatz.
From Verif.Lib Require Import Num Monad RTac NTac.
From Verif.Spec Require Import Waves Ranges Reports Runup CrestWall.
From Verif.Model Require Import CoreUtility CorePhysics Numpy VanGent2001 CrestWall2019.
From Verif.Proofs Require Import Core CheckTac Warns Reports Runup2001.
Import ListNotations.
Open Scope R_scope.

Lemma wall_check_ok Rc Ac H Fb beta : value (check_validity Rc Ac H Fb beta) = Ok tt.
Proof. unfold check_validity. mchecks. reflexivity. Qed.

Lemma wall_cos beta : ncos (deg2rad (Fin beta)) = Fin (cos (beta * PI / 180)).
Proof. unfold deg2rad, npi. rewrite ndiv_fin by lra. nfin. do 2 f_equal. field. Qed.

Lemma reduction_half beta : 0.5 * cos (beta * PI / 180) ^ 2 + 0.5 = reduction 0.5 beta.
Proof. unfold reduction. lra. Qed.

Lemma reduction_0 c : reduction c 0 = 1.
Proof. unfold reduction. replace (0 * PI / 180) with 0 by field. rewrite cos_0. ring. Qed.

Lemma reduction_range c beta : 0 <= c <= 1 -> c <= reduction c beta <= 1.
Proof.
  intros. unfold reduction. pose proof (COS_bound (beta * PI / 180)). assert (0 <= cos (beta * PI / 180) ^ 2 <= 1) by nra. nra.
Qed.

Lemma reduction_decreasing c a b : c < 1 -> 0 <= a -> a < b -> b <= 90 -> reduction c b < reduction c a.
Proof.
  intros. unfold reduction. pose proof PI_RGT_0.
  assert (0 <= a * PI) by (apply Rmult_le_pos; lra). assert (a * PI < b * PI) by (apply Rmult_lt_compat_r; lra).
  assert (b * PI <= 90 * PI) by (apply Rmult_le_compat_r; lra).
  assert (L : cos (b * PI / 180) < cos (a * PI / 180)) by (apply cos_decreasing_1; lra).
  assert (0 <= cos (b * PI / 180)) by (apply cos_ge_0; lra).
  assert (Q : cos (b * PI / 180) ^ 2 < cos (a * PI / 180) ^ 2) by nra. apply (Rmult_lt_compat_l (1 - c)) in Q; lra.
Qed.

Definition runup H T cot gf gb c0 c1 : R := gf * gb * H * vangent_curve c0 c1 (iribarren g0 H T (1 / cot)).

Lemma runup_fin H T cot gf gb c0 c1 : 0 < H -> 0 < T -> 0 < cot -> 0 < c0 ->
  calculate_wave_runup_height_zXp (Fin H) (Fin T) (Fin gf * Fin gb)%num (Fin cot) (Fin c0) (Fin c1) = Fin (runup H T cot gf gb c0 c1).
Proof. intros. rewrite nmul_fin, zXp_fin by assumption. reflexivity. Qed.

Lemma runup_pos H T cot gf gb c0 c1 : 0 < H -> 0 < T -> 0 < cot -> 0 < gf -> 0 < gb -> 0 < c0 -> 0 < c1 -> 0 < runup H T cot gf gb c0 c1.
Proof.
  intros. unfold runup. assert (0 < vangent_curve c0 c1 (iribarren g0 H T (1 / cot))) by (apply curve_pos; [assumption|assumption|apply xi_p; assumption]). rpos.
Qed.

(** ** Perpendicular waves *)

Lemma max_pos_part a x : 0 < a ->
  0 <= Rmax (a * x) 0 /\ (Rmax (a * x) 0 = 0 <-> x <= 0) /\ (0 <= x -> Rmax (a * x) 0 = a * x).
Proof.
  intros Ha. split; [apply Rmax_r|]. split.
  - split.
    + intros E. pose proof (Rmax_l (a * x) 0). rewrite E in H. destruct (Rle_lt_dec x 0); [assumption|]. assert (0 < a * x) by rpos. lra.
    + intros. apply Rmax_right. nra.
  - intros. apply Rmax_left. nra.
Qed.

(** The horizontal force is the published load where the run-up [z] exceeds the
    armour crest, and 0 otherwise; the wave height and the wall crest only enter
    the validity check. *)
Theorem C37_horizontal : forall (Hm0 Rc : num) z Ac hwall rho g c,
  0 < hwall -> 0 < rho -> 0 < g -> 0 < c ->
  exists F,
    value (calculate_FH2p_perpendicular_from_z2p Hm0 (Fin z) (Fin Ac) Rc (Fin hwall) (Fin rho) (Fin g) (Fin c)) = Ok (Fin F)
    /\ 0 <= F /\ (F = 0 <-> z <= Ac) /\ (Ac <= z -> F = horizontal_load c rho g hwall z Ac).
Proof.
  intros. unfold calculate_FH2p_perpendicular_from_z2p. mval. rewrite !wall_check_ok. mval. nfin. eexists. split; [reflexivity|].
  unfold horizontal_load.
  assert (P : 0 < c * rho * g * hwall) by rpos. destruct (max_pos_part _ (z - Ac) P) as (A & B & D).
  split; [exact A|]. split; [rewrite B; split; intros; lra|]. intros. apply D. lra.
Qed.

(** From the wave height: the run-up is that of Van Gent (2001) with the product
    of the two reduction factors, at standard gravity whatever [g]. *)
Theorem C37_horizontal_waves : forall H T cot Ac hwall gb gf c0 c1 rho g c (Rc : num),
  0 < H -> 0 < T -> 0 < cot -> 0 < c0 ->
  let z := gf * gb * H * vangent_curve c0 c1 (iribarren g0 H T (1 / cot)) in
  value (calculate_FH2p_perpendicular (Fin H) (Fin T) (Fin cot) (Fin Ac) Rc (Fin hwall) (Fin gb) (Fin gf) (Fin c0) (Fin c1) (Fin rho) (Fin g) (Fin c))
  = value (calculate_FH2p_perpendicular_from_z2p (Fin H) (Fin z) (Fin Ac) Rc (Fin hwall) (Fin rho) (Fin g) (Fin c))
  /\ value (calculate_FH2p_perpendicular_from_z2p (Fin H) (Fin z) (Fin Ac) Rc (Fin hwall) (Fin rho) (Fin g) (Fin c))
  = Ok (Fin (Rmax (horizontal_load c rho g hwall z Ac) 0)).
Proof.
  intros. unfold calculate_FH2p_perpendicular. rewrite runup_fin by assumption. fold z.
  change (runup H T cot gf gb c0 c1) with z.
  unfold calculate_FH2p_perpendicular_from_z2p. mval. rewrite !wall_check_ok. mval. rewrite !wall_check_ok. mval. nfin. split; reflexivity.
Qed.

Lemma npow_half a : 0 <= a -> npow (Fin a) #0.5 = Fin (sqrt a).
Proof.
  intros [Ha|<-].
  - rewrite npow_fin by assumption. rewrite <- Rpower_sqrt by assumption. do 2 f_equal. lra.
  - rewrite npow_0_pos by lra. rewrite sqrt_0. reflexivity.
Qed.

Lemma vertical_value z Ac bwall Fb c rho g : 0 < Ac -> 0 <= Fb ->
  calculate_FV2p_perpendicular_from_z2p (Fin z) (Fin Ac) (Fin bwall) (Fin Fb) (Fin c) default_cFb (Fin rho) (Fin g)
  = Fin (Rmax (vertical_load c rho g bwall z Ac Fb) 0).
Proof.
  intros. unfold calculate_FV2p_perpendicular_from_z2p, default_cFb. rewrite ndiv_fin by lra.
  rewrite npow_half by (apply Rmult_le_pos; [assumption|left; apply Rinv_0_lt_compat; assumption]). nfin. reflexivity.
Qed.

Lemma base_factor Ac Fb : 0 < Ac -> 0 <= Fb -> (Fb < Ac -> 0 < 1 - sqrt (Fb / Ac)) /\ (Fb = Ac -> 1 - sqrt (Fb / Ac) = 0) /\ (Ac < Fb -> 1 - sqrt (Fb / Ac) < 0).
Proof.
  intros HA HF. assert (P : 0 <= Fb / Ac) by (apply Rmult_le_pos; [assumption|left; apply Rinv_0_lt_compat; assumption]).
  assert (E : Fb / Ac * Ac = Fb) by (field; lra). pose proof sqrt_1.
  repeat split; intros.
  - assert (Fb / Ac < 1) by nra. assert (sqrt (Fb / Ac) < sqrt 1) by (apply sqrt_lt_1; lra). lra.
  - subst. replace (Ac / Ac) with 1 by (field; lra). lra.
  - assert (1 < Fb / Ac) by nra. assert (sqrt 1 < sqrt (Fb / Ac)) by (apply sqrt_lt_1; lra). lra.
Qed.

(** A wall whose base lies below the armour crest feels a vertical force exactly
    when the run-up exceeds three quarters of the armour crest level. *)
Theorem C37_vertical : forall z Ac bwall Fb c rho g,
  0 <= Fb < Ac -> 0 < bwall -> 0 < rho -> 0 < g -> 0 < c ->
  exists F,
    calculate_FV2p_perpendicular_from_z2p (Fin z) (Fin Ac) (Fin bwall) (Fin Fb) (Fin c) default_cFb (Fin rho) (Fin g) = Fin F
    /\ 0 <= F /\ (F = 0 <-> z <= 0.75 * Ac) /\ (0.75 * Ac <= z -> F = vertical_load c rho g bwall z Ac Fb).
Proof.
  intros z Ac bwall Fb c rho g HF HB Hr Hg Hc. rewrite vertical_value by lra. eexists. split; [reflexivity|].
  destruct (base_factor Ac Fb) as (P & _ & _); [lra|lra|]. specialize (P (proj2 HF)).
  assert (Q : 0 < c * rho * g * bwall * (1 - sqrt (Fb / Ac))) by rpos.
  unfold vertical_load. replace (c * rho * g * bwall * (z - 0.75 * Ac) * (1 - sqrt (Fb / Ac))) with (c * rho * g * bwall * (1 - sqrt (Fb / Ac)) * (z - 0.75 * Ac)) by ring.
  destruct (max_pos_part _ (z - 0.75 * Ac) Q) as (A & B & D). split; [exact A|]. split; [rewrite B; split; intros; lra|]. intros. apply D. lra.
Qed.

(** At or above the armour crest both factors of the load change sign together:
    the force is 0 for high run-up and positive for low run-up. *)
Theorem C37_vertical_high_base : forall z Ac bwall Fb c rho g,
  0 < Ac -> Ac < Fb -> 0 < bwall -> 0 < rho -> 0 < g -> 0 < c ->
  exists F,
    calculate_FV2p_perpendicular_from_z2p (Fin z) (Fin Ac) (Fin bwall) (Fin Fb) (Fin c) default_cFb (Fin rho) (Fin g) = Fin F
    /\ (0 < F <-> z < 0.75 * Ac) /\ (0.75 * Ac <= z -> F = 0).
Proof.
  intros z Ac bwall Fb c rho g HA HF HB Hr Hg Hc. rewrite vertical_value by lra. eexists. split; [reflexivity|].
  destruct (base_factor Ac Fb) as (_ & _ & P); [lra|lra|]. specialize (P HF).
  assert (Q : 0 < c * rho * g * bwall * - (1 - sqrt (Fb / Ac))) by rpos.
  unfold vertical_load. replace (c * rho * g * bwall * (z - 0.75 * Ac) * (1 - sqrt (Fb / Ac))) with (c * rho * g * bwall * - (1 - sqrt (Fb / Ac)) * (0.75 * Ac - z)) by ring.
  destruct (max_pos_part _ (0.75 * Ac - z) Q) as (A & B & D). split.
  - split; intros L.
    + destruct (Rlt_le_dec z (0.75 * Ac)); [assumption|]. exfalso. apply Rgt_not_eq in L. apply L, B. lra.
    + destruct A as [A|A]; [exact A|]. symmetry in A. apply B in A. lra.
  - intros. apply B. lra.
Qed.

(** So a vertical force without run-up on the wall is possible. *)
Theorem C37_vertical_without_runup_refuted : exists z Ac bwall Fb,
  0 < z /\ 0 < Ac /\ 0 < bwall /\ 0 < Fb /\ z < 0.75 * Ac /\
  exists F, calculate_FV2p_perpendicular_from_z2p (Fin z) (Fin Ac) (Fin bwall) (Fin Fb) default_cFV default_cFb default_rho_water g_default = Fin F /\ 0 < F.
Proof.
  exists 1, 2, 5, 3. repeat (split; [lra|]).
  destruct (C37_vertical_high_base 1 2 5 3 0.4 1025 9.81) as (F & E & P & _); try lra. exists F. split; [exact E|]. apply P. lra.
Qed.

Theorem C37_vertical_waves : forall H T cot Ac bwall Fb gb gf c0 c1 c rho g,
  0 < H -> 0 < T -> 0 < cot -> 0 < c0 -> 0 < Ac -> 0 <= Fb ->
  let z := gf * gb * H * vangent_curve c0 c1 (iribarren g0 H T (1 / cot)) in
  value (calculate_FV2p_perpendicular (Fin H) (Fin T) (Fin cot) (Fin Ac) (Fin bwall) (Fin Fb) (Fin gb) (Fin gf) (Fin c0) (Fin c1) (Fin c) default_cFb (Fin rho) (Fin g))
  = Ok (calculate_FV2p_perpendicular_from_z2p (Fin z) (Fin Ac) (Fin bwall) (Fin Fb) (Fin c) default_cFb (Fin rho) (Fin g))
  /\ calculate_FV2p_perpendicular_from_z2p (Fin z) (Fin Ac) (Fin bwall) (Fin Fb) (Fin c) default_cFb (Fin rho) (Fin g)
  = Fin (Rmax (vertical_load c rho g bwall z Ac Fb) 0).
Proof.
  intros. split; [|apply vertical_value; assumption]. unfold calculate_FV2p_perpendicular. rewrite runup_fin by assumption.
  change (runup H T cot gf gb c0 c1) with z. mval. rewrite wall_check_ok. mval. reflexivity.
Qed.

(** ** Oblique waves *)

Lemma gamma_fin z Ac beta a : z <> a * Ac ->
  calculate_influence_oblique_waves_force_gamma_F_beta (Fin z) (Fin Ac) (Fin beta) (Fin a)
  = Fin ((reduction 0.5 beta * z - a * Ac) / (z - a * Ac)).
Proof.
  intros. unfold calculate_influence_oblique_waves_force_gamma_F_beta. rewrite wall_cos, npow_fin_2. nfin.
  rewrite ?ndiv_fin by lra. rewrite reduction_half. reflexivity.
Qed.

(** The factor turns the run-up above a part [a] of the armour crest into that
    of the reduced run-up. *)
Theorem C37_gamma : forall z Ac beta a,
  z <> a * Ac ->
  exists v, calculate_influence_oblique_waves_force_gamma_F_beta (Fin z) (Fin Ac) (Fin beta) (Fin a) = Fin v
  /\ v * (z - a * Ac) = reduction 0.5 beta * z - a * Ac
  /\ (beta = 0 -> v = 1) /\ (0 <= z -> a * Ac < z -> v <= 1).
Proof.
  intros z Ac beta a N. rewrite gamma_fin by assumption. eexists. split; [reflexivity|]. split; [field; lra|]. split.
  - intros ->. rewrite reduction_0. field. lra.
  - intros Hz L. apply (Rmult_le_reg_r (z - a * Ac)); [lra|]. unfold Rdiv. rewrite Rmult_assoc, Rinv_l, Rmult_1_r, Rmult_1_l by lra.
    pose proof (reduction_range 0.5 beta ltac:(lra)). nra.
Qed.

Theorem C37_gamma_decreasing : forall z Ac beta beta' a,
  0 < z -> a * Ac < z -> 0 <= beta -> beta < beta' -> beta' <= 90 ->
  exists v v', calculate_influence_oblique_waves_force_gamma_F_beta (Fin z) (Fin Ac) (Fin beta) (Fin a) = Fin v
  /\ calculate_influence_oblique_waves_force_gamma_F_beta (Fin z) (Fin Ac) (Fin beta') (Fin a) = Fin v' /\ v' < v.
Proof.
  intros. rewrite !gamma_fin by lra. do 2 eexists. split; [reflexivity|]. split; [reflexivity|].
  apply Rmult_lt_compat_r; [apply Rinv_0_lt_compat; lra|]. pose proof (reduction_decreasing 0.5 beta beta'). nra.
Qed.

(** The run-up factor for oblique waves. *)
Theorem C37_gamma_beta : forall beta c,
  calculate_influence_oblique_waves_gamma_beta (Fin beta) (Fin c) = Fin (reduction c beta)
  /\ reduction c 0 = 1 /\ reduction c 90 = c /\ reduction c (- beta) = reduction c beta
  /\ (0 <= c <= 1 -> c <= reduction c beta <= 1)
  /\ (c < 1 -> forall beta', 0 <= beta -> beta < beta' -> beta' <= 90 -> reduction c beta' < reduction c beta).
Proof.
  intros. split; [unfold calculate_influence_oblique_waves_gamma_beta; rewrite wall_cos, npow_fin_2; nfin; reflexivity|].
  split; [apply reduction_0|]. split.
  { unfold reduction. replace (90 * PI / 180) with (PI / 2) by field. rewrite cos_PI2. ring. }
  split. { unfold reduction. replace (- beta * PI / 180) with (- (beta * PI / 180)) by field. rewrite cos_neg. reflexivity. }
  split; [apply reduction_range|]. intros. apply reduction_decreasing; assumption.
Qed.

(** Above the armour crest the oblique force is the load of the reduced run-up,
    of either sign; below it is 0; at the armour crest it is no number. *)
Theorem C37_horizontal_oblique : forall H T beta cot Ac hwall gb gf c0 c1 c rho g (Rc : num),
  0 < H -> 0 < T -> 0 < cot -> 0 < c0 -> 0 < hwall -> 0 < rho -> 0 < g -> 0 < c ->
  let z := gf * gb * H * vangent_curve c0 c1 (iribarren g0 H T (1 / cot)) in
  let result := value (calculate_FH2p_oblique (Fin H) (Fin T) (Fin beta) (Fin cot) (Fin Ac) Rc (Fin hwall) (Fin gb) (Fin gf) (Fin c0) (Fin c1) (Fin c) (Fin rho) (Fin g)) in
  (Ac < z -> result = Ok (Fin (horizontal_load c rho g hwall (reduction 0.5 beta * z) Ac)))
  /\ (z < Ac -> result = Ok (Fin 0))
  /\ (z = Ac -> result = Ok NaN).
Proof.
  intros H T beta cot Ac hwall gb gf c0 c1 c rho g Rc HH HT Hcot H0 Hw Hr Hg Hc z result.
  assert (E : result = Ok (calculate_influence_oblique_waves_force_gamma_F_beta (Fin z) (Fin Ac) (Fin beta) #1 * Fin (Rmax (horizontal_load c rho g hwall z Ac) 0))%num).
  { unfold result, calculate_FH2p_oblique, calculate_influence_oblique_waves_horizontal_force_gamma_FH_beta, gamma_A_FH.
    rewrite runup_fin by assumption. change (runup H T cot gf gb c0 c1) with z.
    unfold calculate_FH2p_perpendicular_from_z2p. mval. rewrite !wall_check_ok. mval. rewrite !wall_check_ok. mval. do 2 f_equal. nfin. reflexivity. }
  rewrite E. clear E result. assert (P : 0 < c * rho * g * hwall) by rpos. destruct (max_pos_part _ (z - Ac) P) as (_ & B & D). fold (horizontal_load c rho g hwall z Ac) in B, D.
  split; [|split].
  - intros L. rewrite gamma_fin, nmul_fin by lra. rewrite D by lra. do 2 f_equal. unfold horizontal_load. field. lra.
  - intros L. rewrite gamma_fin, nmul_fin by lra. rewrite (proj2 B) by lra. rewrite Rmult_0_r. reflexivity.
  - intros L. rewrite (proj2 B) by lra. unfold calculate_influence_oblique_waves_force_gamma_F_beta. rewrite wall_cos, npow_fin_2. nfin.
    replace (z - 1 * Ac) with 0 by lra. f_equal. set (n := _ - 1 * Ac).
    destruct (total_order_T n 0) as [[L'|L']|L'].
    + rewrite ndiv_neg_0 by assumption. cbn. unfold inf_mul. rewrite Reqb_true by reflexivity. reflexivity.
    + rewrite L', ndiv_0_0. reflexivity.
    + rewrite ndiv_pos_0 by assumption. cbn. unfold inf_mul. rewrite Reqb_true by reflexivity. reflexivity.
Qed.

(** For waves at any angle up to 90 degrees, some armour crests below the run-up
    level give a negative force. *)
Theorem C37_horizontal_oblique_negative : forall H T beta cot hwall gb gf c0 c1 c rho g (Rc : num),
  0 < H -> 0 < T -> 0 < cot -> 0 < c0 -> 0 < c1 -> 0 < hwall -> 0 < rho -> 0 < g -> 0 < c -> 0 < gb -> 0 < gf -> 0 < beta <= 90 ->
  exists Ac F,
    0 < Ac < gf * gb * H * vangent_curve c0 c1 (iribarren g0 H T (1 / cot)) /\
    value (calculate_FH2p_oblique (Fin H) (Fin T) (Fin beta) (Fin cot) (Fin Ac) Rc (Fin hwall) (Fin gb) (Fin gf) (Fin c0) (Fin c1) (Fin c) (Fin rho) (Fin g)) = Ok (Fin F)
    /\ F < 0.
Proof.
  intros H T beta cot hwall gb gf c0 c1 c rho g Rc HH HT Hcot H0 H1 Hw Hr Hg Hc Hgb Hgf Hb.
  pose proof (runup_pos H T cot gf gb c0 c1 HH HT Hcot Hgf Hgb H0 H1) as Hz.
  set (z := runup H T cot gf gb c0 c1) in *.
  pose proof (reduction_decreasing 0.5 0 beta ltac:(lra) ltac:(lra) ltac:(lra) ltac:(lra)) as L. rewrite reduction_0 in L.
  pose proof (reduction_range 0.5 beta ltac:(lra)) as L0.
  set (r := reduction 0.5 beta) in *. set (Ac := (r + 1) / 2 * z).
  assert (A1 : r * z < Ac) by (unfold Ac; nra). assert (A2 : Ac < z) by (unfold Ac; nra). assert (A3 : 0 < Ac) by (unfold Ac; nra).
  destruct (C37_horizontal_oblique H T beta cot Ac hwall gb gf c0 c1 c rho g Rc) as (E & _); try assumption.
  specialize (E A2). eexists. eexists. split; [split; [exact A3|exact A2]|]. split; [exact E|].
  fold (runup H T cot gf gb c0 c1). fold z r. unfold horizontal_load. assert (P : 0 < c * rho * g * hwall) by rpos. nra.
Qed.

Theorem C37_horizontal_oblique_refuted : exists H T beta cot Ac Rc hwall F,
  0 < H /\ 0 < T /\ 0 <= beta <= 75 /\ 0 < cot /\ 0 < Ac /\ 0 < Rc /\ 0 < hwall /\
  value (calculate_FH2p_oblique (Fin H) (Fin T) (Fin beta) (Fin cot) (Fin Ac) (Fin Rc) (Fin hwall) default_gamma_beta default_gamma_f default_c0 default_c1
    default_cFH default_rho_water g_default) = Ok (Fin F)
  /\ F < 0.
Proof.
  destruct (C37_horizontal_oblique_negative 3 10 60 2 2 1 0.45 1.45 5 1 1025 9.81 #6) as (Ac & F & HA & E & L); try lra.
  exists 3, 10, 60, 2, Ac, 6, 2, F. repeat (split; [lra|]). split; [exact E|exact L].
Qed.

Theorem C37_vertical_oblique : forall H T beta cot Ac bwall Fb gb gf c0 c1 c rho g,
  0 < H -> 0 < T -> 0 < cot -> 0 < c0 -> 0 < bwall -> 0 < rho -> 0 < g -> 0 < c -> 0 <= Fb < Ac ->
  let z := gf * gb * H * vangent_curve c0 c1 (iribarren g0 H T (1 / cot)) in
  let result := value (calculate_FV2p_oblique (Fin H) (Fin T) (Fin beta) (Fin cot) (Fin Ac) (Fin bwall) (Fin Fb) (Fin gb) (Fin gf) (Fin c0) (Fin c1) (Fin c) default_cFb (Fin rho) (Fin g)) in
  (0.75 * Ac < z -> result = Ok (Fin (vertical_load c rho g bwall (reduction 0.5 beta * z) Ac Fb)))
  /\ (z < 0.75 * Ac -> result = Ok (Fin 0))
  /\ (z = 0.75 * Ac -> result = Ok NaN).
Proof.
  intros H T beta cot Ac bwall Fb gb gf c0 c1 c rho g HH HT Hcot H0 Hw Hr Hg Hc HF z result.
  assert (E : result = Ok (calculate_influence_oblique_waves_force_gamma_F_beta (Fin z) (Fin Ac) (Fin beta) #0.75 * Fin (Rmax (vertical_load c rho g bwall z Ac Fb) 0))%num).
  { unfold result, calculate_FV2p_oblique, calculate_influence_oblique_waves_vertical_force_gamma_FV_beta, gamma_A_FV.
    rewrite runup_fin by assumption. change (runup H T cot gf gb c0 c1) with z.
    rewrite vertical_value by lra. mval. rewrite !wall_check_ok. mval. reflexivity. }
  rewrite E. clear E result. destruct (base_factor Ac Fb) as (Q & _ & _); [lra|lra|]. specialize (Q (proj2 HF)).
  assert (P : 0 < c * rho * g * bwall * (1 - sqrt (Fb / Ac))) by rpos. destruct (max_pos_part _ (z - 0.75 * Ac) P) as (_ & B & D).
  replace (c * rho * g * bwall * (1 - sqrt (Fb / Ac)) * (z - 0.75 * Ac)) with (vertical_load c rho g bwall z Ac Fb) in * by (unfold vertical_load; ring).
  split; [|split].
  - intros L. rewrite gamma_fin, nmul_fin by lra. rewrite D by lra. do 2 f_equal. unfold vertical_load. field. lra.
  - intros L. rewrite gamma_fin, nmul_fin by lra. rewrite (proj2 B) by lra. rewrite Rmult_0_r. reflexivity.
  - intros L. rewrite (proj2 B) by lra. unfold calculate_influence_oblique_waves_force_gamma_F_beta. rewrite wall_cos, npow_fin_2. nfin.
    replace (z - 0.75 * Ac) with 0 by lra. f_equal. set (n := _ - 0.75 * Ac).
    destruct (total_order_T n 0) as [[L'|L']|L'].
    + rewrite ndiv_neg_0 by assumption. cbn. unfold inf_mul. rewrite Reqb_true by reflexivity. reflexivity.
    + rewrite L', ndiv_0_0. reflexivity.
    + rewrite ndiv_pos_0 by assumption. cbn. unfold inf_mul. rewrite Reqb_true by reflexivity. reflexivity.
Qed.

(** ** Extreme loads *)
Theorem C37_extreme : forall FH FV s,
  calculate_FH01p_perpendicular (Fin FH) = Fin (1.6 * FH)
  /\ exists F, calculate_FV01p_perpendicular (Fin FV) (Fin s) = Fin F
     /\ (0 < FV -> (FV <= F <-> s <= 0.05875) /\ (F < 0 <-> 0.09 < s)) /\ (FV = 0 -> F = 0).
Proof.
  intros. unfold calculate_FH01p_perpendicular, calculate_FV01p_perpendicular. nfin. split; [reflexivity|]. eexists. split; [reflexivity|].
  split; [|intros ->; ring]. intros P. split; split; intros L.
  - destruct (Rle_lt_dec s 0.05875); [assumption|]. exfalso. nra.
  - nra.
  - destruct (Rle_lt_dec s 0.09); [exfalso; nra|assumption].
  - nra.
Qed.

(** ** Scaling *)

(** Under Froude scaling by [k] the forces per metre scale with [k]^2. *)
Theorem C37_froude : forall H T beta cot Ac hwall gb gf c0 c1 c rho g k (Rc Rc' : num),
  0 < H -> 0 < T -> 0 < cot -> 0 < c0 -> 0 < hwall -> 0 < rho -> 0 < g -> 0 < c -> 0 < k ->
  Ac <> gf * gb * H * vangent_curve c0 c1 (iribarren g0 H T (1 / cot)) ->
  exists F F',
    value (calculate_FH2p_perpendicular (Fin H) (Fin T) (Fin cot) (Fin Ac) Rc (Fin hwall) (Fin gb) (Fin gf) (Fin c0) (Fin c1) (Fin rho) (Fin g) (Fin c)) = Ok (Fin F)
    /\ value (calculate_FH2p_perpendicular (Fin (k * H)) (Fin (sqrt k * T)) (Fin cot) (Fin (k * Ac)) Rc' (Fin (k * hwall)) (Fin gb) (Fin gf) (Fin c0) (Fin c1) (Fin rho) (Fin g) (Fin c)) = Ok (Fin (k ^ 2 * F))
    /\ value (calculate_FH2p_oblique (Fin H) (Fin T) (Fin beta) (Fin cot) (Fin Ac) Rc (Fin hwall) (Fin gb) (Fin gf) (Fin c0) (Fin c1) (Fin c) (Fin rho) (Fin g)) = Ok (Fin F')
    /\ value (calculate_FH2p_oblique (Fin (k * H)) (Fin (sqrt k * T)) (Fin beta) (Fin cot) (Fin (k * Ac)) Rc' (Fin (k * hwall)) (Fin gb) (Fin gf) (Fin c0) (Fin c1) (Fin c) (Fin rho) (Fin g)) = Ok (Fin (k ^ 2 * F')).
Proof.
  intros H T beta cot Ac hwall gb gf c0 c1 c rho g k Rc Rc' HH HT Hcot H0 Hw Hr Hg Hc Hk HA.
  assert (0 < k * H) by rpos. assert (0 < sqrt k * T) by rpos. assert (0 < k * hwall) by rpos. assert (Hk2 : 0 < k ^ 2) by (apply pow_lt; assumption).
  set (z := gf * gb * H * vangent_curve c0 c1 (iribarren g0 H T (1 / cot))) in *.
  assert (EI : iribarren g0 (k * H) (sqrt k * T) (1 / cot) = iribarren g0 H T (1 / cot)) by (unfold iribarren; rewrite steepness_froude by (assumption || apply g0_pos); reflexivity).
  assert (Ez : gf * gb * (k * H) * vangent_curve c0 c1 (iribarren g0 (k * H) (sqrt k * T) (1 / cot)) = k * z) by (rewrite EI; unfold z; ring).
  destruct (C37_horizontal_waves H T cot Ac hwall gb gf c0 c1 rho g c Rc) as (E1 & E1'); try assumption.
  destruct (C37_horizontal_waves (k * H) (sqrt k * T) cot (k * Ac) (k * hwall) gb gf c0 c1 rho g c Rc') as (E2 & E2'); try assumption.
  cbv zeta in *. rewrite Ez in *. fold z in E1, E1'.
  rewrite E1 , E1', E2, E2'.
  destruct (C37_horizontal_oblique H T beta cot Ac hwall gb gf c0 c1 c rho g Rc) as (O1 & O2 & _); try assumption.
  destruct (C37_horizontal_oblique (k * H) (sqrt k * T) beta cot (k * Ac) (k * hwall) gb gf c0 c1 c rho g Rc') as (O1' & O2' & _); try assumption.
  fold z in O1, O2. rewrite Ez in *.
  eexists. assert (S : Rmax (horizontal_load c rho g (k * hwall) (k * z) (k * Ac)) 0 = k ^ 2 * Rmax (horizontal_load c rho g hwall z Ac) 0).
  { rewrite <- RmaxRmult by lra. f_equal; [|ring]. unfold horizontal_load. ring. } rewrite S.
  destruct (Rlt_le_dec Ac z) as [L|L].
  - rewrite O1, O1' by nra. eexists. repeat (split; [reflexivity|]). do 2 f_equal. unfold horizontal_load. ring.
  - assert (z < Ac) by (destruct L; [assumption|congruence]). rewrite O2, O2' by nra. exists 0. repeat (split; [reflexivity|]). do 2 f_equal. ring.
Qed.

(** ** Examples *)

(** Run-up of 5 m on armour of 4 m, a wall of 2 m: 20 kN/m; twice the run-up
    gives 6 times the force. *)
Example C37_example :
  value (calculate_FH2p_perpendicular_from_z2p #3 #5 #4 #6 #2 #1000 #10 #1) = Ok #20000
  /\ value (calculate_FH2p_perpendicular_from_z2p #3 #10 #4 #6 #2 #1000 #10 #1) = Ok #120000
  /\ value (calculate_FH2p_perpendicular_from_z2p #3 #3 #4 #6 #2 #1000 #10 #1) = Ok #0
  /\ calculate_FV2p_perpendicular_from_z2p #5 #4 #10 #1 #0.4 #0.5 #1000 #10 = #40000
  /\ calculate_influence_oblique_waves_force_gamma_F_beta #5 #4 #90 #1 = #(-1.5).
Proof.
  repeat split.
  - destruct (C37_horizontal #3 #6 5 4 2 1000 10 1) as (F & -> & _ & _ & E); try lra. rewrite E by lra. do 2 f_equal. unfold horizontal_load. lra.
  - destruct (C37_horizontal #3 #6 10 4 2 1000 10 1) as (F & -> & _ & _ & E); try lra. rewrite E by lra. do 2 f_equal. unfold horizontal_load. lra.
  - destruct (C37_horizontal #3 #6 3 4 2 1000 10 1) as (F & -> & _ & E & _); try lra. do 2 f_equal. apply E. lra.
  - destruct (C37_vertical 5 4 10 1 0.4 1000 10) as (F & E & _ & _ & E'); try lra. unfold default_cFb in E. rewrite E, E' by lra. f_equal. unfold vertical_load.
    replace (1 / 4) with ((1 / 2) * (1 / 2)) by lra. rewrite sqrt_square by lra. lra.
  - rewrite gamma_fin by lra. f_equal. unfold reduction. replace (90 * PI / 180) with (PI / 2) by field. rewrite cos_PI2. lra.
Qed.

(** ** C58: warnings *)
Definition wall_ranges (Rc Ac Hm0 Fb beta : num) : list xrange :=
  [XRange "(Rc-Ac)/Hm0" "Van Gent and Van der Werf 2019" ((Rc - Ac) / Hm0)%num #0.26 #0.77;
   XRange "Rc/Ac" "Van Gent and Van der Werf 2019" (Rc / Ac)%num #1.27 #1.55;
   XRange "Rc/Hm0" "Van Gent and Van der Werf 2019" (Rc / Hm0)%num #0.79 #2.18;
   XRange "Fb/Hm0" "Van Gent and Van der Werf 2019" (Fb / Hm0)%num #0 #0.62;
   XRange "beta" "Van Gent and Van der Werf 2019" beta #0 #75].

(** The horizontal forces repeat the same check two or three times; the vertical
    forces never look at the wall crest. *)
Theorem C58_crest_wall : forall Hm0 z T beta cot Ac Rc wall Fb gb gf c0 c1 c cb rho g,
  reported (wall_ranges Rc Ac Hm0 NaN NaN ++ wall_ranges Rc Ac Hm0 NaN NaN) (warns (calculate_FH2p_perpendicular_from_z2p Hm0 z Ac Rc wall rho g c))
  /\ reported (wall_ranges Rc Ac Hm0 NaN NaN ++ wall_ranges Rc Ac Hm0 NaN NaN ++ wall_ranges Rc Ac Hm0 NaN NaN)
       (warns (calculate_FH2p_perpendicular Hm0 T cot Ac Rc wall gb gf c0 c1 rho g c))
  /\ reported (wall_ranges Rc Ac Hm0 NaN NaN ++ wall_ranges Rc Ac Hm0 NaN NaN ++ wall_ranges Rc Ac Hm0 NaN beta)
       (warns (calculate_FH2p_oblique Hm0 T beta cot Ac Rc wall gb gf c0 c1 c rho g))
  /\ reported (wall_ranges NaN Ac Hm0 Fb NaN) (warns (calculate_FV2p_perpendicular Hm0 T cot Ac wall Fb gb gf c0 c1 c cb rho g))
  /\ reported (wall_ranges NaN Ac Hm0 Fb beta) (warns (calculate_FV2p_oblique Hm0 T beta cot Ac wall Fb gb gf c0 c1 c cb rho g)).
Proof.
  intros. unfold calculate_FH2p_perpendicular, calculate_FH2p_oblique, calculate_FV2p_perpendicular, calculate_FV2p_oblique, calculate_FH2p_perpendicular_from_z2p, check_validity, wall_ranges.
  cbv zeta. cbn [app]. repeat split; reports.
Qed.
