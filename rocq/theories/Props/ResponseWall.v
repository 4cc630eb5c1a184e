(** Property C79, crest walls: larger and longer waves load a crest wall more, oblique waves do not always. *)
From Coq Require Import Reals Lra List Bool String Psatz.
From Verif.Lib Require Import Num Monad RTac NTac.
From Verif.Spec Require Import Waves Runup CrestWall Response.
From Verif.Model Require Import CoreUtility CorePhysics Numpy VanGent2001 CrestWall2019.
From Verif.Proofs Require Import Core Runup2001 Loads.
From Verif.Props Require Import CrestWall.
Import ListNotations.
Open Scope R_scope.

Lemma xi_period_slope H T T' cot cot' : 0 < H -> 0 < T <= T' -> 0 < cot' <= cot ->
  higher (T < T' \/ cot' < cot) (iribarren g0 H T (1 / cot)) (iribarren g0 H T' (1 / cot')).
Proof.
  intros HH HT Hc. assert (E : forall T c, 0 < T -> 0 < c -> iribarren g0 H T (1 / c) = T * (1 / c) * iribarren g0 H 1 1).
  { intros. replace T0 with (T0 * 1) at 1 by ring. rewrite xi_scale_T by lra. unfold iribarren. unfold Rdiv. ring. }
  rewrite !E by lra. assert (P : 0 < iribarren g0 H 1 1) by (pose proof (xi_p 1 1 Rlt_0_1 Rlt_0_1 H HH) as X; replace (1 / 1) with 1 in X by field; exact X).
  assert (C : higher (cot' < cot) (1 / cot) (1 / cot')).
  { split; [apply Rmult_le_compat_l; [lra|]; apply Rinv_le_contravar; lra|]. intros. apply Rmult_lt_compat_l; [lra|]. apply Rinv_lt_contravar; [apply Rmult_lt_0_compat|]; lra. }
  assert (0 < 1 / cot) by (apply Rdiv_lt_0_compat; lra).
  eapply higher_weaken; [|exact (higher_mul _ _ _ _ _ _ (Rmult_lt_0_compat T (1 / cot) (proj1 HT) H0) P (higher_mul _ _ _ _ _ _ (proj1 HT) H0 (higher_self _ _ (proj2 HT)) C) (higher_refl _))]. tauto.
Qed.

Lemma runup_higher H H' T T' cot cot' gf gf' gb gb' c0 c1 : 0 < H <= H' -> 0 < T <= T' -> 0 < cot' <= cot -> 0 < gf <= gf' -> 0 < gb <= gb' -> 0 < c0 -> 0 < c1 ->
  higher (H < H' \/ T < T' \/ cot' < cot \/ gf < gf' \/ gb < gb') (runup H T cot gf gb c0 c1) (runup H' T' cot' gf' gb' c0 c1).
Proof.
  intros HH HT Hc Hf Hb H0 H1. unfold runup.
  assert (A : higher (H < H') (H * vangent_curve c0 c1 (iribarren g0 H T (1 / cot))) (H' * vangent_curve c0 c1 (iribarren g0 H' T (1 / cot)))).
  { assert (S : H < H' -> H * vangent_curve c0 c1 (iribarren g0 H T (1 / cot)) < H' * vangent_curve c0 c1 (iribarren g0 H' T (1 / cot))).
    { intros S. exact (level_increasing T cot c0 c1 ltac:(lra) ltac:(lra) H0 H1 H H' (proj1 HH) S). }
    split; [|exact S]. destruct (proj2 HH) as [L| ->]; [left; auto|right; reflexivity]. }
  assert (B : higher (T < T' \/ cot' < cot) (vangent_curve c0 c1 (iribarren g0 H' T (1 / cot))) (vangent_curve c0 c1 (iribarren g0 H' T' (1 / cot')))).
  { destruct (xi_period_slope H' T T' cot cot' ltac:(lra) HT Hc) as [[L|E] S].
    - pose proof (xi_p T cot ltac:(lra) ltac:(lra) H' ltac:(lra)). pose proof (curve_increasing c0 c1 _ _ H0 H1 H2 L). split; intros; lra.
    - rewrite <- E. split; [lra|]. intros Q. specialize (S Q). lra. }
  assert (P : 0 < vangent_curve c0 c1 (iribarren g0 H T (1 / cot))) by (apply curve_pos; [assumption|assumption|apply xi_p; lra]).
  assert (P' : 0 < vangent_curve c0 c1 (iribarren g0 H' T (1 / cot))) by (apply curve_pos; [assumption|assumption|apply xi_p; lra]).
  assert (C : higher (H < H' \/ T < T' \/ cot' < cot) (H * vangent_curve c0 c1 (iribarren g0 H T (1 / cot))) (H' * vangent_curve c0 c1 (iribarren g0 H' T' (1 / cot')))).
  { destruct A as [A1 A2], B as [B1 B2]. assert (H' * vangent_curve c0 c1 (iribarren g0 H' T (1 / cot)) <= H' * vangent_curve c0 c1 (iribarren g0 H' T' (1 / cot'))) by (apply Rmult_le_compat_l; lra).
    split; [lra|]. intros [S|S]; [specialize (A2 S); lra|]. specialize (B2 S). assert (H' * vangent_curve c0 c1 (iribarren g0 H' T (1 / cot)) < H' * vangent_curve c0 c1 (iribarren g0 H' T' (1 / cot'))) by (apply Rmult_lt_compat_l; lra). lra. }
  rewrite !(Rmult_assoc (_ * _)). 
  eapply higher_weaken; [|exact (higher_mul _ _ _ _ _ _ (Rmult_lt_0_compat _ _ (proj1 Hf) (proj1 Hb)) (Rmult_lt_0_compat _ _ (proj1 HH) P)
    (higher_mul _ _ _ _ _ _ (proj1 Hf) (proj1 Hb) (higher_self _ _ (proj2 Hf)) (higher_self _ _ (proj2 Hb))) C)]. tauto.
Qed.

Lemma positive_part (P Q : Prop) a a' x x' : 0 < a -> higher P a a' -> higher Q x x' ->
  0 <= Rmax (a * x) 0 /\ higher ((P \/ Q) /\ 0 < Rmax (a' * x') 0) (Rmax (a * x) 0) (Rmax (a' * x') 0).
Proof.
  intros A [A1 A2] [X1 X2]. split; [apply Rmax_r|]. destruct (Rlt_dec 0 x) as [G|G].
  - pose proof (higher_mul P Q a a' x x' A G (conj A1 A2) (conj X1 X2)) as [M1 M2]. assert (0 < a * x) by (apply Rmult_lt_0_compat; assumption).
    rewrite !Rmax_left by lra. split; [assumption|]. tauto.
  - assert (a * x <= 0) by (assert (0 <= a * - x) by (apply Rmult_le_pos; lra); lra). rewrite (Rmax_right (a * x)) by assumption. split; [apply Rmax_r|]. tauto.
Qed.

(** The horizontal force of perpendicular waves. *)
Theorem C79_wall_horizontal : forall H H' T T' cot cot' Ac Ac' hwall hwall' gb gb' gf gf' c0 c1 rho rho' g c (Rc Rc' : num),
  0 < H <= H' -> 0 < T <= T' -> 0 < cot' <= cot -> Ac' <= Ac -> 0 < hwall <= hwall' -> 0 < gb <= gb' -> 0 < gf <= gf' -> 0 < c0 -> 0 < c1 -> 0 < rho <= rho' -> 0 < g -> 0 < c ->
  exists F F',
    value (calculate_FH2p_perpendicular (Fin H) (Fin T) (Fin cot) (Fin Ac) Rc (Fin hwall) (Fin gb) (Fin gf) (Fin c0) (Fin c1) (Fin rho) (Fin g) (Fin c)) = Ok (Fin F)
    /\ value (calculate_FH2p_perpendicular (Fin H') (Fin T') (Fin cot') (Fin Ac') Rc' (Fin hwall') (Fin gb') (Fin gf') (Fin c0) (Fin c1) (Fin rho') (Fin g) (Fin c)) = Ok (Fin F')
    /\ 0 <= F /\ higher ((H < H' \/ T < T' \/ cot' < cot \/ gf < gf' \/ gb < gb' \/ Ac' < Ac \/ hwall < hwall' \/ rho < rho') /\ 0 < F') F F'.
Proof.
  intros H H' T T' cot cot' Ac Ac' hwall hwall' gb gb' gf gf' c0 c1 rho rho' g c Rc Rc' HH HT Hc HA Hw Hb Hf H0 H1 Hr Hg Hcc.
  destruct (C37_horizontal_waves H T cot Ac hwall gb gf c0 c1 rho g c Rc) as [E1 E2]; [lra..|].
  destruct (C37_horizontal_waves H' T' cot' Ac' hwall' gb' gf' c0 c1 rho' g c Rc') as [E1' E2']; [lra..|].
  rewrite E2 in E1. rewrite E2' in E1'. do 2 eexists. split; [exact E1|]. split; [exact E1'|].
  pose proof (runup_higher H H' T T' cot cot' gf gf' gb gb' c0 c1 HH HT Hc Hf Hb H0 H1) as [Z1 Z2]. unfold runup in Z1, Z2. unfold horizontal_load.
  set (z := gf * gb * H * vangent_curve c0 c1 (iribarren g0 H T (1 / cot))) in *. set (z' := gf' * gb' * H' * vangent_curve c0 c1 (iribarren g0 H' T' (1 / cot'))) in *.
  assert (G : higher (rho < rho' \/ hwall < hwall') (c * rho * g * hwall) (c * rho' * g * hwall')).
  { rewrite !(Rmult_comm c), !(Rmult_assoc _ c g). assert (CG : 0 < c * g) by (apply Rmult_lt_0_compat; assumption).
    eapply higher_weaken; [|exact (higher_mul _ _ _ _ _ _ (Rmult_lt_0_compat _ _ (proj1 Hr) CG) (proj1 Hw) (higher_mul _ _ _ _ _ _ (proj1 Hr) CG (higher_self _ _ (proj2 Hr)) (higher_refl _)) (higher_self _ _ (proj2 Hw)))]. tauto. }
  assert (X : higher ((H < H' \/ T < T' \/ cot' < cot \/ gf < gf' \/ gb < gb') \/ Ac' < Ac) (z - Ac) (z' - Ac')).
  { split; [lra|]. intros [S|S]; [specialize (Z2 S)|]; lra. }
  assert (GP : 0 < c * rho * g * hwall) by (repeat apply Rmult_lt_0_compat; lra).
  destruct (positive_part _ _ _ _ _ _ GP G X) as [P Q]. split; [exact P|].
  eapply higher_weaken; [|exact Q]. tauto.
Qed.

(** The vertical force; the base of the wall may come down, not the crest of the armour. *)
Theorem C79_wall_vertical : forall H H' T T' cot cot' Ac bwall bwall' Fb Fb' gb gb' gf gf' c0 c1 c rho rho' g,
  0 < H <= H' -> 0 < T <= T' -> 0 < cot' <= cot -> 0 < bwall <= bwall' -> 0 <= Fb' <= Fb -> Fb < Ac -> 0 < gb <= gb' -> 0 < gf <= gf' -> 0 < c0 -> 0 < c1 -> 0 < rho <= rho' -> 0 < g -> 0 < c ->
  exists F F',
    value (calculate_FV2p_perpendicular (Fin H) (Fin T) (Fin cot) (Fin Ac) (Fin bwall) (Fin Fb) (Fin gb) (Fin gf) (Fin c0) (Fin c1) (Fin c) default_cFb (Fin rho) (Fin g)) = Ok (Fin F)
    /\ value (calculate_FV2p_perpendicular (Fin H') (Fin T') (Fin cot') (Fin Ac) (Fin bwall') (Fin Fb') (Fin gb') (Fin gf') (Fin c0) (Fin c1) (Fin c) default_cFb (Fin rho') (Fin g)) = Ok (Fin F')
    /\ 0 <= F /\ higher ((H < H' \/ T < T' \/ cot' < cot \/ gf < gf' \/ gb < gb' \/ Fb' < Fb \/ bwall < bwall' \/ rho < rho') /\ 0 < F') F F'.
Proof.
  intros H H' T T' cot cot' Ac bwall bwall' Fb Fb' gb gb' gf gf' c0 c1 c rho rho' g HH HT Hc Hw HFb HFA Hb Hf H0 H1 Hr Hg Hcc.
  destruct (C37_vertical_waves H T cot Ac bwall Fb gb gf c0 c1 c rho g) as [E1 E2]; [lra..|].
  destruct (C37_vertical_waves H' T' cot' Ac bwall' Fb' gb' gf' c0 c1 c rho' g) as [E1' E2']; [lra..|].
  rewrite E2 in E1. rewrite E2' in E1'. do 2 eexists. split; [exact E1|]. split; [exact E1'|].
  pose proof (runup_higher H H' T T' cot cot' gf gf' gb gb' c0 c1 HH HT Hc Hf Hb H0 H1) as [Z1 Z2]. unfold runup in Z1, Z2. unfold vertical_load.
  set (z := gf * gb * H * vangent_curve c0 c1 (iribarren g0 H T (1 / cot))) in *. set (z' := gf' * gb' * H' * vangent_curve c0 c1 (iribarren g0 H' T' (1 / cot'))) in *.
  pose proof (proj1 (base_factor Ac Fb ltac:(lra) ltac:(lra)) HFA) as B0.
  assert (BF : higher (Fb' < Fb) (1 - sqrt (Fb / Ac)) (1 - sqrt (Fb' / Ac))).
  { assert (0 < / Ac) by (apply Rinv_0_lt_compat; lra). split.
    - assert (sqrt (Fb' / Ac) <= sqrt (Fb / Ac)) by (apply sqrt_le_1_alt; apply Rmult_le_compat_r; lra). lra.
    - intros S. assert (sqrt (Fb' / Ac) < sqrt (Fb / Ac)); [|lra]. apply sqrt_lt_1_alt. split; [apply Rmult_le_pos; lra|apply Rmult_lt_compat_r; lra]. }
  assert (G : higher (rho < rho' \/ bwall < bwall') (c * rho * g * bwall) (c * rho' * g * bwall')).
  { rewrite !(Rmult_comm c), !(Rmult_assoc _ c g). assert (CG : 0 < c * g) by (apply Rmult_lt_0_compat; assumption).
    eapply higher_weaken; [|exact (higher_mul _ _ _ _ _ _ (Rmult_lt_0_compat _ _ (proj1 Hr) CG) (proj1 Hw) (higher_mul _ _ _ _ _ _ (proj1 Hr) CG (higher_self _ _ (proj2 Hr)) (higher_refl _)) (higher_self _ _ (proj2 Hw)))]. tauto. }
  assert (X : higher (H < H' \/ T < T' \/ cot' < cot \/ gf < gf' \/ gb < gb') (z - 0.75 * Ac) (z' - 0.75 * Ac)).
  { split; [lra|]. intros S; specialize (Z2 S); lra. }
  assert (GP : 0 < c * rho * g * bwall) by (repeat apply Rmult_lt_0_compat; lra).
  pose proof (higher_mul _ _ _ _ _ _ GP B0 G BF) as G2.
  destruct (positive_part _ _ _ _ _ _ (Rmult_lt_0_compat _ _ GP B0) G2 X) as [P Q].
  replace (c * rho * g * bwall * (z - 0.75 * Ac) * (1 - sqrt (Fb / Ac))) with (c * rho * g * bwall * (1 - sqrt (Fb / Ac)) * (z - 0.75 * Ac)) by ring.
  replace (c * rho' * g * bwall' * (z' - 0.75 * Ac) * (1 - sqrt (Fb' / Ac))) with (c * rho' * g * bwall' * (1 - sqrt (Fb' / Ac)) * (z' - 0.75 * Ac)) by ring.
  split; [exact P|]. eapply higher_weaken; [|exact Q]. tauto.
Qed.

(** A lower armour crest leaves more of the wall free, but can take the uplift away. *)
Theorem C79_wall_armour_refuted : exists z Ac Ac' bwall Fb F F',
  0 < z /\ 0 < Fb /\ Fb <= Ac' /\ Ac' < Ac /\ 0 < bwall
  /\ calculate_FV2p_perpendicular_from_z2p (Fin z) (Fin Ac) (Fin bwall) (Fin Fb) default_cFV default_cFb default_rho_water g_default = Fin F
  /\ calculate_FV2p_perpendicular_from_z2p (Fin z) (Fin Ac') (Fin bwall) (Fin Fb) default_cFV default_cFb default_rho_water g_default = Fin F'
  /\ F' = 0 /\ 0 < F.
Proof.
  exists 3, 2, 1, 4, 1. unfold default_cFV, default_rho_water. change g_default with (Fin g0). rewrite !vertical_value by lra. do 2 eexists. do 5 (split; [lra|]). split; [reflexivity|]. split; [reflexivity|].
  unfold vertical_load. replace (1 / 1) with 1 by field. rewrite sqrt_1. split; [rewrite Rmax_right; lra|].
  apply Rlt_le_trans with (0.4 * 1025 * g0 * 4 * (3 - 0.75 * 2) * (1 - sqrt (1 / 2))); [|apply Rmax_l]. pose proof g0_pos.
  assert (sqrt (1 / 2) < 1) by (rewrite <- sqrt_1 at 2; apply sqrt_lt_1_alt; lra). apply Rmult_lt_0_compat; lra.
Qed.

(** Oblique waves that reach over the armour: larger and less oblique ones push harder ... *)
Theorem C79_wall_oblique : forall H H' T T' beta beta' cot cot' Ac Ac' hwall gb gb' gf gf' c0 c1 rho g c (Rc Rc' : num),
  0 < H <= H' -> 0 < T <= T' -> 0 <= beta' <= beta -> beta <= 90 -> 0 < cot' <= cot -> Ac' <= Ac -> 0 < hwall -> 0 < gb <= gb' -> 0 < gf <= gf' -> 0 < c0 -> 0 < c1 -> 0 < rho -> 0 < g -> 0 < c ->
  Ac < gf * gb * H * vangent_curve c0 c1 (iribarren g0 H T (1 / cot)) ->
  exists F F',
    value (calculate_FH2p_oblique (Fin H) (Fin T) (Fin beta) (Fin cot) (Fin Ac) Rc (Fin hwall) (Fin gb) (Fin gf) (Fin c0) (Fin c1) (Fin c) (Fin rho) (Fin g)) = Ok (Fin F)
    /\ value (calculate_FH2p_oblique (Fin H') (Fin T') (Fin beta') (Fin cot') (Fin Ac') Rc' (Fin hwall) (Fin gb') (Fin gf') (Fin c0) (Fin c1) (Fin c) (Fin rho) (Fin g)) = Ok (Fin F')
    /\ higher (H < H' \/ T < T' \/ cot' < cot \/ gf < gf' \/ gb < gb' \/ beta' < beta \/ Ac' < Ac) F F'.
Proof.
  intros H H' T T' beta beta' cot cot' Ac Ac' hwall gb gb' gf gf' c0 c1 rho g c Rc Rc' HH HT Hbe Hbe9 Hc HA Hw Hb Hf H0 H1 Hr Hg Hcc HZ.
  pose proof (runup_higher H H' T T' cot cot' gf gf' gb gb' c0 c1 HH HT Hc Hf Hb H0 H1) as Z. pose proof (runup_pos H T cot gf gb c0 c1 ltac:(lra) ltac:(lra) ltac:(lra) ltac:(lra) ltac:(lra) H0 H1) as Z0.
  pose proof (C37_horizontal_oblique H T beta cot Ac hwall gb gf c0 c1 c rho g Rc ltac:(lra) ltac:(lra) ltac:(lra) H0 Hw Hr Hg Hcc) as [V _].
  pose proof (C37_horizontal_oblique H' T' beta' cot' Ac' hwall gb' gf' c0 c1 c rho g Rc' ltac:(lra) ltac:(lra) ltac:(lra) H0 Hw Hr Hg Hcc) as [V' _].
  unfold runup in Z, Z0. destruct Z as [Z1 Z2].
  do 2 eexists. split; [apply V; lra|]. split; [apply V'; lra|]. clear V V'. unfold horizontal_load.
  set (z := gf * gb * H * vangent_curve c0 c1 (iribarren g0 H T (1 / cot))) in *. set (z' := gf' * gb' * H' * vangent_curve c0 c1 (iribarren g0 H' T' (1 / cot'))) in *.
  assert (R : higher (beta' < beta) (reduction 0.5 beta) (reduction 0.5 beta')).
  { destruct (proj2 Hbe) as [L|E]; [pose proof (reduction_decreasing 0.5 beta' beta ltac:(lra) ltac:(lra) L Hbe9); split; intros; lra|]. rewrite E. split; intros; lra. }
  pose proof (reduction_range 0.5 beta ltac:(lra)) as RR. assert (R0 : 0 < reduction 0.5 beta) by lra.
  pose proof (higher_mul _ _ _ _ _ _ R0 Z0 R (conj Z1 Z2)) as [M1 M2]. assert (G : 0 < c * rho * g * hwall) by (repeat apply Rmult_lt_0_compat; assumption).
  split; [apply Rmult_le_compat_l; lra|]. intros S. apply Rmult_lt_compat_l; [assumption|]. destruct (Rlt_dec Ac' Ac); [lra|]. assert (reduction 0.5 beta * z < reduction 0.5 beta' * z') by (apply M2; tauto). lra.
Qed.

(** ... but waves that just reach over it pull: whatever the larger wave, there is an armour crest at which the
    smaller wave has no force and the larger one a negative force. *)
Theorem C79_wall_oblique_drop : forall H H' T beta cot hwall gb gf c0 c1 rho g c (Rc Rc' : num),
  0 < H < H' -> 0 < T -> 0 < beta <= 90 -> 0 < cot -> 0 < hwall -> 0 < gb -> 0 < gf -> 0 < c0 -> 0 < c1 -> 0 < rho -> 0 < g -> 0 < c ->
  exists Ac F', 0 < Ac
    /\ value (calculate_FH2p_oblique (Fin H) (Fin T) (Fin beta) (Fin cot) (Fin Ac) Rc (Fin hwall) (Fin gb) (Fin gf) (Fin c0) (Fin c1) (Fin c) (Fin rho) (Fin g)) = Ok (Fin 0)
    /\ value (calculate_FH2p_oblique (Fin H') (Fin T) (Fin beta) (Fin cot) (Fin Ac) Rc' (Fin hwall) (Fin gb) (Fin gf) (Fin c0) (Fin c1) (Fin c) (Fin rho) (Fin g)) = Ok (Fin F')
    /\ F' < 0.
Proof.
  intros H H' T beta cot hwall gb gf c0 c1 rho g c Rc Rc' HH HT Hbe Hc Hw Hb Hf H0 H1 Hr Hg Hcc.
  pose proof (runup_higher H H' T T cot cot gf gf gb gb c0 c1 ltac:(lra) ltac:(lra) ltac:(lra) ltac:(lra) ltac:(lra) H0 H1) as [_ Z]. specialize (Z ltac:(tauto)).
  pose proof (runup_pos H T cot gf gb c0 c1 ltac:(lra) HT Hc Hf Hb H0 H1) as Z0. unfold runup in Z, Z0.
  set (z := gf * gb * H * vangent_curve c0 c1 (iribarren g0 H T (1 / cot))) in *. set (z' := gf * gb * H' * vangent_curve c0 c1 (iribarren g0 H' T (1 / cot))) in *.
  assert (RD : reduction 0.5 beta < 1) by (rewrite <- (reduction_0 0.5); apply reduction_decreasing; lra). pose proof (reduction_range 0.5 beta ltac:(lra)) as RR.
  set (r := reduction 0.5 beta) in *. assert (RZ : r * z' < z') by (rewrite <- (Rmult_1_l z') at 2; apply Rmult_lt_compat_r; lra).
  set (m := Rmax z (r * z')). assert (M : m < z') by (apply Rmax_lub_lt; assumption). assert (M1 : z <= m) by apply Rmax_l. assert (M2 : r * z' <= m) by apply Rmax_r.
  exists ((m + z') / 2). eexists. split; [lra|].
  pose proof (C37_horizontal_oblique H T beta cot ((m + z') / 2) hwall gb gf c0 c1 c rho g Rc ltac:(lra) ltac:(lra) ltac:(lra) H0 Hw Hr Hg Hcc) as (_ & V & _).
  pose proof (C37_horizontal_oblique H' T beta cot ((m + z') / 2) hwall gb gf c0 c1 c rho g Rc' ltac:(lra) ltac:(lra) ltac:(lra) H0 Hw Hr Hg Hcc) as (V' & _).
  split; [apply V; fold z; lra|]. split; [apply V'; fold z'; lra|]. fold z' r. unfold horizontal_load.
  assert (G : 0 < c * rho * g * hwall) by (repeat apply Rmult_lt_0_compat; assumption).
  assert (0 < c * rho * g * hwall * ((m + z') / 2 - r * z')) by (apply Rmult_lt_0_compat; lra). lra.
Qed.
Theorem C79_wall_oblique_refuted : exists H H' T beta cot Ac hwall F F',
  0 < H /\ H < H' /\ 0 < T /\ 0 <= beta <= 75 /\ 0 < cot /\ 0 < Ac /\ 0 < hwall
  /\ value (calculate_FH2p_oblique (Fin H) (Fin T) (Fin beta) (Fin cot) (Fin Ac) #6 (Fin hwall) default_gamma_beta default_gamma_f default_c0 default_c1 default_cFH default_rho_water g_default) = Ok (Fin F)
  /\ value (calculate_FH2p_oblique (Fin H') (Fin T) (Fin beta) (Fin cot) (Fin Ac) #6 (Fin hwall) default_gamma_beta default_gamma_f default_c0 default_c1 default_cFH default_rho_water g_default) = Ok (Fin F')
  /\ F' < F.
Proof.
  destruct (C79_wall_oblique_drop 2 3 8 30 2 2 1 0.45 1.45 5 1025 g0 1 #6 #6) as (Ac & F & A & V & V' & N); try lra; [exact g0_pos|].
  exists 2, 3, 8, 30, 2, Ac, 2, 0, F. do 7 (split; [lra|]). split; [exact V|]. split; [exact V'|exact N].
Qed.

(** A wall of 2 m in a storm that grows from 3 m to 4 m: the force grows or stays zero. *)
Example C79_wall_example : exists F F',
  value (calculate_FH2p_perpendicular #3 #9 #2 #1 #3 #2 default_gamma_beta default_gamma_f default_c0 default_c1 default_rho_water (Fin g0) default_cFH) = Ok (Fin F)
  /\ value (calculate_FH2p_perpendicular #4 #10 #2 #1 #3 #2 default_gamma_beta default_gamma_f default_c0 default_c1 default_rho_water (Fin g0) default_cFH) = Ok (Fin F')
  /\ 0 <= F <= F' /\ (0 < F' -> F < F').
Proof.
  destruct (C79_wall_horizontal 3 4 9 10 2 2 1 1 2 2 1 1 0.45 0.45 1.45 5 1025 1025 g0 1 #3 #3) as (F & F' & V & V' & P & L & S); try lra; [exact g0_pos|].
  exists F, F'. split; [exact V|]. split; [exact V'|]. split; [lra|]. intros Q. apply S. split; [left; lra|assumption].
Qed.
