(** Properties C20-C22: run-up levels of Van Gent (2001) and crest velocities of
    Van Gent (2002). *)
From Coq Require Import Reals Lra Lia List Bool String Psatz.
From Verif.Lib Require Import Num Monad RTac NTac Contraction.
From Verif.Spec Require Import Waves Runup.
From Verif.Model Require Import CoreUtility CorePhysics VanGent2001 VanGent2002Velocity.
From Verif.Proofs Require Import Core Runup2001.
Import ListNotations.
Open Scope R_scope.

(** ** C20 *)
(** The four published levels, each with its own pair of coefficients. *)
Theorem C20_levels_follow_the_curve :
  forall H T gamma cot c0 c1, 0 < H -> 0 < T -> 0 < cot -> 0 < c0 ->
    let xi := iribarren g0 H T (1 / cot) in
    calculate_wave_runup_height_z1p (Fin H) (Fin T) (Fin gamma) (Fin cot) z1p_c0 z1p_c1
      = Fin (gamma * H * vangent_curve 1.45 5.1 xi)
    /\ value (calculate_wave_runup_height_z2p (Fin T) (Fin gamma) (Fin cot) NaN (Fin H) z2p_c0 z2p_c1)
      = Ok (Fin (gamma * H * vangent_curve 1.35 4.7 xi))
    /\ value (calculate_wave_runup_height_z2p (Fin T) (Fin gamma) (Fin cot) (Fin H) NaN (Fin c0) (Fin c1))
      = Ok (Fin (gamma * H * vangent_curve 1.45 3.8 xi))
    /\ calculate_wave_runup_height_z10p (Fin H) (Fin T) (Fin gamma) (Fin cot) z10p_c0 z10p_c1
      = Fin (gamma * H * vangent_curve 1.1 4 xi)
    /\ calculate_wave_runup_height_z1p (Fin H) (Fin T) (Fin gamma) (Fin cot) (Fin c0) (Fin c1)
      = Fin (gamma * H * vangent_curve c0 c1 xi)
    /\ value (calculate_wave_runup_height_z2p (Fin T) (Fin gamma) (Fin cot) NaN (Fin H) (Fin c0) (Fin c1))
      = Ok (Fin (gamma * H * vangent_curve c0 c1 xi))
    /\ calculate_wave_runup_height_z10p (Fin H) (Fin T) (Fin gamma) (Fin cot) (Fin c0) (Fin c1)
      = Fin (gamma * H * vangent_curve c0 c1 xi).
Proof.
  intros H T gamma cot c0 c1 HH HT Hc H0 xi. unfold calculate_wave_runup_height_z1p, calculate_wave_runup_height_z10p.
  unfold calculate_wave_runup_height_z2p, z1p_c0, z1p_c1, z2p_c0, z2p_c1, z10p_c0, z10p_c1.
  cbn [isnan andb orb negb]. mval. rewrite !zXp_fin by (assumption || lra). repeat split; reflexivity.
Qed.

(** The 2% level is computed exactly when one of the two wave heights is given. *)
Theorem C20_z2p_needs_exactly_one_wave_height :
  forall T gamma cot Hm0 Hs c0 c1,
    (isnan Hm0 = isnan Hs -> calculate_wave_runup_height_z2p T gamma cot Hm0 Hs c0 c1 = raise ValueError)
    /\ (isnan Hm0 <> isnan Hs -> exists z, calculate_wave_runup_height_z2p T gamma cot Hm0 Hs c0 c1 = ret z).
Proof.
  intros. unfold calculate_wave_runup_height_z2p. split; destruct (isnan Hm0), (isnan Hs); cbn [andb orb negb]; intros;
    try congruence; try reflexivity; eexists; reflexivity.
Qed.

(** The curve has no jump and no kink: it is differentiable everywhere, also
    where the two branches meet. *)
Theorem C20_curve_is_smooth :
  forall c0 c1 xi, 0 < c0 -> 0 < c1 -> 0 < xi ->
    derivable_pt_lim (vangent_curve c0 c1) xi
      (if Rle_dec xi (c1 / (2 * c0)) then c0 else c1 ^ 2 / (4 * c0) / xi ^ 2).
Proof.
  intros c0 c1 xi H0 H1 Hx. set (p := c1 / (2 * c0)). assert (Hp : 0 < p) by (unfold p; rpos).
  set (q := c1 ^ 2 / (4 * c0)). assert (Hq : 0 < q) by (unfold q; rpos).
  assert (Eq : q = c0 * p ^ 2) by (unfold q, p; field; lra). assert (Ec : c1 = 2 * c0 * p) by (unfold p; field; lra).
  destruct (total_order_T xi p) as [[L|L]|L].
  - destruct (Rle_dec xi p); [|lra]. intros eps He. assert (Hd : 0 < p - xi) by lra.
    exists (mkposreal _ Hd). intros h Hh Lh. cbn [pos] in Lh. unfold vangent_curve. fold p.
    pose proof (Rle_abs h). destruct (Rlt_dec (xi + h) p); [|lra]. destruct (Rlt_dec xi p); [|lra].
    replace ((c0 * (xi + h) - c0 * xi) / h - c0) with 0 by (field; assumption). rewrite Rabs_R0. assumption.
  - destruct (Rle_dec xi p); [|lra]. subst xi. intros eps He.
    assert (Hd : 0 < Rmin p (eps * p / c0)) by (apply Rmin_glb_lt; rpos).
    exists (mkposreal _ Hd). intros h Hh Lh. cbn [pos] in Lh.
    pose proof (Rmin_l p (eps * p / c0)). pose proof (Rmin_r p (eps * p / c0)). unfold vangent_curve. fold p q.
    destruct (Rlt_dec p p); [lra|]. rewrite Eq, Ec.
    replace (2 * c0 * p - c0 * p ^ 2 / p) with (c0 * p) by (field; lra).
    destruct (Rlt_dec (p + h) p).
    + replace ((c0 * (p + h) - c0 * p) / h - c0) with 0 by (field; assumption). rewrite Rabs_R0. assumption.
    + assert (0 < h) by lra. rewrite Rabs_pos_eq in Lh by lra.
      replace ((2 * c0 * p - c0 * p ^ 2 / (p + h) - c0 * p) / h - c0) with (- (c0 * h / (p + h))) by (field; lra).
      rewrite Rabs_Ropp, Rabs_pos_eq by (apply Rlt_le; rpos).
      apply Rle_lt_trans with (c0 * h / p).
      * unfold Rdiv. apply Rmult_le_compat_l; [apply Rlt_le; rpos|]. apply Rinv_le_contravar; lra.
      * apply (Rmult_lt_reg_r (p / c0)); [rpos|]. replace (c0 * h / p * (p / c0)) with h by (field; lra).
        replace (eps * (p / c0)) with (eps * p / c0) by (field; lra). lra.
  - destruct (Rle_dec xi p); [lra|]. assert (Hd : 0 < xi - p) by lra.
    assert (D : derivable_pt_lim (fun x => c1 - q / x) xi (q / xi ^ 2)).
    { replace (q / xi ^ 2) with (0 - q * (- / (xi ^ 2))) by (field; lra).
      apply (derivable_pt_lim_minus (fun _ => c1) (fun x => q / x)); [apply derivable_pt_lim_const|].
      replace (q * - / xi ^ 2) with ((0 * id xi - 1 * fct_cte q xi) / Rsqr (id xi)) by (unfold id, fct_cte, Rsqr; field; lra).
      apply (derivable_pt_lim_div (fct_cte q) id xi 0 1).
      - apply derivable_pt_lim_const.
      - apply derivable_pt_lim_id.
      - unfold id. lra. }
    intros eps He. destruct (D eps He) as (d & Hd'). assert (Hm : 0 < Rmin d (xi - p)) by (apply Rmin_glb_lt; [apply cond_pos|lra]).
    exists (mkposreal _ Hm). intros h Hh Lh. cbn [pos] in Lh. pose proof (Rmin_l d (xi - p)). pose proof (Rmin_r d (xi - p)).
    unfold vangent_curve. fold p q. pose proof (Rle_abs (- h)) as A. rewrite Rabs_Ropp in A.
    destruct (Rlt_dec (xi + h) p); [lra|]. destruct (Rlt_dec xi p); [lra|]. apply Hd'; [assumption|lra].
Qed.

(** Longer waves, a gentler obliqueness or roughness reduction, a steeper slope
    and higher waves all run up higher. *)
Theorem C20_level_increases :
  forall H T gamma cot c0 c1 k, 0 < H -> 0 < T -> 0 < gamma -> 0 < cot -> 0 < c0 -> 0 < c1 -> 1 < k ->
    exists z zT zg zc zH,
      calculate_wave_runup_height_zXp (Fin H) (Fin T) (Fin gamma) (Fin cot) (Fin c0) (Fin c1) = Fin z
      /\ calculate_wave_runup_height_zXp (Fin H) (Fin (k * T)) (Fin gamma) (Fin cot) (Fin c0) (Fin c1) = Fin zT
      /\ calculate_wave_runup_height_zXp (Fin H) (Fin T) (Fin (k * gamma)) (Fin cot) (Fin c0) (Fin c1) = Fin zg
      /\ calculate_wave_runup_height_zXp (Fin H) (Fin T) (Fin gamma) (Fin (cot / k)) (Fin c0) (Fin c1) = Fin zc
      /\ calculate_wave_runup_height_zXp (Fin (k * H)) (Fin T) (Fin gamma) (Fin cot) (Fin c0) (Fin c1) = Fin zH
      /\ 0 < z /\ z < zT /\ zg = k * z /\ zc = zT /\ z < zH.
Proof.
  intros H T gamma cot c0 c1 k HH HT Hg Hc H0 H1 Hk.
  assert (0 < k * T) by rpos. assert (0 < cot / k) by rpos. assert (0 < k * H) by rpos.
  do 5 eexists. rewrite !zXp_fin by (assumption || lra). do 5 (split; [reflexivity|]).
  assert (X : 0 < iribarren g0 H T (1 / cot)) by (apply xi_p; assumption).
  assert (Ec : iribarren g0 H T (1 / (cot / k)) = k * iribarren g0 H T (1 / cot)).
  { unfold iribarren. pose proof (steepness_pos g0 H T g0_pos HH HT). assert (0 < sqrt (steepness g0 H T)) by rpos. field. lra. }
  rewrite Ec, xi_scale_T by (assumption || lra). set (xi := iribarren g0 H T (1 / cot)) in *.
  pose proof (curve_pos c0 c1 xi H0 H1 X). assert (0 < gamma * H) by rpos.
  assert (xi < k * xi) by nra.
  split; [rpos|]. split; [apply Rmult_lt_compat_l; [assumption|]; apply curve_increasing; assumption|].
  split; [ring|]. split; [reflexivity|].
  pose proof (level_increasing T cot c0 c1 HT Hc H0 H1 H (k * H) HH ltac:(nra)) as L. unfold rel in L.
  fold xi in L. rewrite !Rmult_assoc. apply Rmult_lt_compat_l; [assumption|]. rewrite <- Rmult_assoc. exact L.
Qed.

(** However long the waves, the run-up stays below gamma c1 H. *)
Theorem C20_level_is_bounded :
  forall H T gamma cot c0 c1, 0 < H -> 0 < T -> 0 < gamma -> 0 < cot -> 0 < c0 -> 0 < c1 ->
    exists z, calculate_wave_runup_height_zXp (Fin H) (Fin T) (Fin gamma) (Fin cot) (Fin c0) (Fin c1) = Fin z
      /\ 0 < z < gamma * c1 * H /\ z <= gamma * c0 * iribarren g0 H T (1 / cot) * H.
Proof.
  intros H T gamma cot c0 c1 HH HT Hg Hc H0 H1. eexists. rewrite zXp_fin by assumption. split; [reflexivity|].
  assert (X : 0 < iribarren g0 H T (1 / cot)) by (apply xi_p; assumption). set (xi := iribarren g0 H T (1 / cot)) in *.
  pose proof (curve_pos c0 c1 xi H0 H1 X). pose proof (curve_lt_c1 c0 c1 xi H0 H1 X). assert (0 < gamma * H) by rpos.
  split; [split; [rpos|]|].
  - replace (gamma * c1 * H) with (gamma * H * c1) by ring. apply Rmult_lt_compat_l; assumption.
  - replace (gamma * c0 * xi * H) with (gamma * H * (c0 * xi)) by ring. apply Rmult_le_compat_l; [lra|].
    rewrite curve_G by assumption. apply G_le. rpos.
Qed.

(** For the same waves the level exceeded by 1% of the waves lies above the one
    exceeded by 2%, which lies above the one exceeded by 10%. *)
Theorem C20_levels_are_ordered :
  forall H T gamma cot, 0 < H -> 0 < T -> 0 < gamma -> 0 < cot ->
    exists z1 z2 z10,
      calculate_wave_runup_height_z1p (Fin H) (Fin T) (Fin gamma) (Fin cot) z1p_c0 z1p_c1 = Fin z1
      /\ value (calculate_wave_runup_height_z2p (Fin T) (Fin gamma) (Fin cot) NaN (Fin H) z2p_c0 z2p_c1) = Ok (Fin z2)
      /\ calculate_wave_runup_height_z10p (Fin H) (Fin T) (Fin gamma) (Fin cot) z10p_c0 z10p_c1 = Fin z10
      /\ 0 < z10 < z2 /\ z2 < z1.
Proof.
  intros H T gamma cot HH HT Hg Hc.
  destruct (C20_levels_follow_the_curve H T gamma cot 1 1 HH HT Hc Rlt_0_1) as (E1 & E2 & _ & E10 & _).
  do 3 eexists. split; [exact E1|]. split; [exact E2|]. split; [exact E10|].
  assert (X : 0 < iribarren g0 H T (1 / cot)) by (apply xi_p; assumption). set (xi := iribarren g0 H T (1 / cot)) in *.
  assert (0 < gamma * H) by rpos. pose proof (curve_pos 1.1 4 xi ltac:(lra) ltac:(lra) X).
  split; [split; [rpos|]|]; (apply Rmult_lt_compat_l; [assumption|]); apply curve_coeffs; lra.
Qed.

(** Scaling a model: lengths by k, times by sqrt k. *)
Theorem C20_froude_scaling :
  forall H T gamma cot c0 c1 k, 0 < H -> 0 < T -> 0 < cot -> 0 < c0 -> 0 < k ->
    exists z, calculate_wave_runup_height_zXp (Fin H) (Fin T) (Fin gamma) (Fin cot) (Fin c0) (Fin c1) = Fin z
      /\ calculate_wave_runup_height_zXp (Fin (k * H)) (Fin (sqrt k * T)) (Fin gamma) (Fin cot) (Fin c0) (Fin c1) = Fin (k * z).
Proof.
  intros H T gamma cot c0 c1 k HH HT Hc H0 Hk. assert (0 < k * H) by rpos. assert (0 < sqrt k * T) by rpos.
  eexists. rewrite !zXp_fin by assumption. split; [reflexivity|]. f_equal. unfold iribarren.
  rewrite steepness_froude by (assumption || apply g0_pos). ring.
Qed.

Example C20_example :
  value (calculate_wave_runup_height_z2p #6 #1 #4 #2 #2 z2p_c0 z2p_c1) = Err ValueError
  /\ calculate_wave_runup_height_zXp (Fin (g0 * 36 / (2 * PI))) #6 #0.5 #2 #1.5 #4 = Fin (0.5 * (g0 * 36 / (2 * PI)) * 0.75).
Proof.
  pose proof PI_RGT_0. pose proof g0_pos. split; [reflexivity|]. rewrite zXp_fin; [|rpos|lra..]. do 2 f_equal.
  unfold vangent_curve. assert (E : iribarren g0 (g0 * 36 / (2 * PI)) 6 (1 / 2) = 1 / 2).
  { unfold iribarren. replace (steepness g0 (g0 * 36 / (2 * PI)) 6) with 1 by (unfold steepness; field; lra).
    rewrite sqrt_1. lra. }
  rewrite E. destruct (Rlt_dec (1 / 2) (4 / (2 * 1.5))); lra.
Qed.

(** ** C21 *)
(** A wave height is reproduced by the inversion for a level exactly when it
    has that level. *)
Theorem C21_fixed_points :
  forall H z T gamma cot c0 c1, 0 < H -> 0 < T -> 0 < gamma -> 0 < cot -> 0 < c0 -> 0 < c1 ->
    (invert_for_Hs (Fin H) (Fin z) (Fin T) (Fin gamma) (Fin cot) (Fin c0) (Fin c1) = Fin H
     <-> calculate_wave_runup_height_zXp (Fin H) (Fin T) (Fin gamma) (Fin cot) (Fin c0) (Fin c1) = Fin z).
Proof.
  intros H z T gamma cot c0 c1 HH HT Hg Hc H0 H1. rewrite invert_fin, zXp_fin by assumption.
  pose proof (rel_pos T cot c0 c1 HT Hc H0 H1 H HH) as P. unfold rel in P. set (r := vangent_curve _ _ _) in *.
  split; intros E; injection E as E; f_equal.
  - rewrite <- E at 1. field. lra.
  - rewrite <- E. field. lra.
Qed.

(** Every level is reached by exactly one wave height, and repeating the
    inversion from any wave height converges to it: each step at least halves
    the logarithmic error. *)
Fixpoint repeat_inversion (n : nat) (H z T gamma cot c0 c1 : num) : num :=
  match n with
  | O => H
  | S n => invert_for_Hs (repeat_inversion n H z T gamma cot c0 c1) z T gamma cot c0 c1
  end.

Theorem C21_repeated_inversion_converges :
  forall z T gamma cot c0 c1, 0 < z -> 0 < T -> 0 < gamma -> 0 < cot -> 0 < c0 -> 0 < c1 ->
    exists Hz, 0 < Hz
      /\ (forall H, 0 < H ->
           (calculate_wave_runup_height_zXp (Fin H) (Fin T) (Fin gamma) (Fin cot) (Fin c0) (Fin c1) = Fin z <-> H = Hz))
      /\ forall H n, 0 < H -> exists Hn, 0 < Hn
           /\ repeat_inversion n (Fin H) (Fin z) (Fin T) (Fin gamma) (Fin cot) (Fin c0) (Fin c1) = Fin Hn
           /\ Rabs (ln Hn - ln Hz) <= (1 / 2) ^ n * Rabs (ln H - ln Hz).
Proof.
  intros z T gamma cot c0 c1 Hz HT Hg Hc H0 H1.
  set (F := fun H => z / (gamma * rel T cot c0 c1 H)).
  assert (Fp : forall x, 0 < x -> 0 < F x).
  { intros x Hx. unfold F. pose proof (rel_pos T cot c0 c1 HT Hc H0 H1 x Hx). rpos. }
  assert (Lip : forall x y, 0 < x -> 0 < y -> Rabs (ln (F x) - ln (F y)) <= 1 / 2 * Rabs (ln x - ln y)).
  { apply log_lip_increasing; [lra|exact Fp|]. intros x y Hx Hy. unfold F.
    pose proof (rel_pos T cot c0 c1 HT Hc H0 H1 x Hx) as Px. pose proof (rel_pos T cot c0 c1 HT Hc H0 H1 y ltac:(lra)) as Py.
    destruct (rel_between T cot c0 c1 HT Hc H0 H1 x y Hx Hy) as [B1 B2].
    assert (0 < y / x) by rpos. replace (1 / 2) with (/ 2) by lra. rewrite <- sqrt_Rpower by assumption.
    assert (0 < sqrt (y / x)) by rpos. set (rx := rel T cot c0 c1 x) in *. set (ry := rel T cot c0 c1 y) in *.
    split.
    - unfold Rdiv. apply Rmult_le_compat_l; [lra|]. apply Rinv_le_contravar; [rpos|]. apply Rmult_le_compat_l; lra.
    - apply (Rmult_le_reg_r (gamma * rx * ry)); [rpos|].
      replace (z / (gamma * ry) * (gamma * rx * ry)) with (z * rx) by (field; lra).
      replace (sqrt (y / x) * (z / (gamma * rx)) * (gamma * rx * ry)) with (z * (sqrt (y / x) * ry)) by (field; lra).
      apply Rmult_le_compat_l; lra. }
  destruct (log_contraction_fixpoint F (1 / 2) ltac:(lra) Fp Lip) as (p & Pp & Fix & Uniq & _).
  exists p. split; [assumption|]. split.
  - intros H HH. rewrite <- (C21_fixed_points H z T gamma cot c0 c1) by assumption.
    rewrite invert_fin by assumption. fold (rel T cot c0 c1 H). fold (F H). split.
    + intros E. injection E as E. apply Uniq; assumption.
    + intros ->. f_equal. exact Fix.
  - intros H n HH. exists (iter F n H). assert (Pn : 0 < iter F n H) by (apply iter_pos; assumption). split; [assumption|].
    split.
    + induction n; [reflexivity|]. cbn [repeat_inversion]. assert (Pn' : 0 < iter F n H) by (apply iter_pos; assumption).
      rewrite (IHn Pn'). rewrite invert_fin by assumption. reflexivity.
    + clear Pn. induction n; [simpl; lra|]. rewrite iter_S. rewrite <- Fix at 1.
      eapply Rle_trans; [apply Lip; [apply iter_pos; assumption|assumption]|]. simpl.
      rewrite Rmult_assoc. apply Rmult_le_compat_l; [lra|exact IHn].
Qed.

Example C21_example :
  exists z, calculate_wave_runup_height_zXp #2 #6 #0.5 #2 #1.45 #5.1 = Fin z
    /\ invert_for_Hs #2 (Fin z) #6 #0.5 #2 #1.45 #5.1 = #2%num.
Proof.
  eexists. split; [apply zXp_fin; lra|]. apply C21_fixed_points; try lra. apply zXp_fin; lra.
Qed.

(** ** C22 *)
Lemma velocity_fin H z Rc B gf gc cu1 cu2 g : 0 < H -> Rc <= z -> 0 <= B -> 0 < gf -> 0 < gc -> 0 <= cu2 -> 0 < g ->
  calculate_maximum_wave_overtopping_velocity_uXp (Fin H) (Fin z) (Fin Rc) (Fin B) (Fin gf) (Fin gc) (Fin cu1) (Fin cu2) (Fin g)
  = Fin (crest_velocity cu1 cu2 g H z Rc B gf gc).
Proof.
  intros HH Hz HB Hf Hcr Hu Hg. unfold calculate_maximum_wave_overtopping_velocity_uXp.
  assert (0 < gf * H) by rpos. assert (0 <= cu2 * B / H) by rpos. assert (0 <= (z - Rc) / (gf * H)) by rpos. assert (0 < g * H) by rpos.
  nfin. f_equal. unfold crest_velocity. f_equal.
  rewrite (Rmult_comm (sqrt (g * H)) cu1). rewrite !Rmult_assoc. f_equal. rewrite <- !sqrt_mult by rpos. f_equal.
  field. lra.
Qed.

(** At or above the crest the velocity is the published one, and not negative;
    below the crest there is no number. *)
Theorem C22_velocity :
  forall H z Rc B gf gc cu1 cu2 g,
    0 < H -> 0 <= B -> 0 < gf -> 0 < gc -> 0 < cu1 -> 0 <= cu2 -> 0 < g ->
    (Rc <= z -> calculate_maximum_wave_overtopping_velocity_uXp (Fin H) (Fin z) (Fin Rc) (Fin B) (Fin gf) (Fin gc) (Fin cu1)
                  (Fin cu2) (Fin g) = Fin (crest_velocity cu1 cu2 g H z Rc B gf gc)
                /\ 0 <= crest_velocity cu1 cu2 g H z Rc B gf gc
                /\ (crest_velocity cu1 cu2 g H z Rc B gf gc = 0 <-> z = Rc))
    /\ (z < Rc -> calculate_maximum_wave_overtopping_velocity_uXp (Fin H) (Fin z) (Fin Rc) (Fin B) (Fin gf) (Fin gc) (Fin cu1)
                  (Fin cu2) (Fin g) = NaN).
Proof.
  intros H z Rc B gf gc cu1 cu2 g HH HB Hf Hcr H1 H2 Hg. split; intros L.
  - split; [apply velocity_fin; assumption|]. assert (0 <= cu2 * B / H) by rpos. unfold crest_velocity.
    set (w := 1 + cu2 * B / H). assert (0 < w) by (unfold w; lra).
    assert (Q : 0 < cu1 * sqrt (g * gc / gf) / w) by rpos.
    replace (cu1 * sqrt (g * gc / gf) * sqrt (z - Rc) / w)
      with (cu1 * sqrt (g * gc / gf) / w * sqrt (z - Rc)) by (unfold Rdiv; ring).
    pose proof (sqrt_pos (z - Rc)). split; [rpos|]. split; intros E.
    + apply Rmult_integral in E. destruct E as [E|E]; [lra|]. apply sqrt_eq_0 in E; lra.
    + subst. replace (Rc - Rc) with 0 by ring. rewrite sqrt_0. ring.
  - unfold calculate_maximum_wave_overtopping_velocity_uXp. assert (0 < gf * H) by rpos.
    rewrite nsub_fin, !nmul_fin, ndiv_fin by lra.
    assert ((z - Rc) / (gf * H) < 0). { unfold Rdiv. assert (0 < / (gf * H)) by rpos. nra. }
    replace (nsqrt (Fin ((z - Rc) / (gf * H)))) with NaN by (simpl; rewrite Rltb_true by assumption; reflexivity).
    nnan. reflexivity.
Qed.

(** Level and velocity functions invert each other. *)
Theorem C22_inverse :
  forall H z u Rc B gf gc cu1 cu2 g,
    0 < H -> 0 <= B -> 0 < gf -> 0 < gc -> 0 < cu1 -> 0 <= cu2 -> 0 < g -> 0 <= u -> Rc <= z ->
    (calculate_maximum_wave_overtopping_velocity_uXp (Fin H) (Fin z) (Fin Rc) (Fin B) (Fin gf) (Fin gc) (Fin cu1) (Fin cu2) (Fin g)
       = Fin u
     <-> invert_for_zXp (Fin H) (Fin u) (Fin Rc) (Fin B) (Fin gf) (Fin gc) (Fin cu1) (Fin cu2) (Fin g) = Fin z).
Proof.
  intros H z u Rc B gf gc cu1 cu2 g HH HB Hf Hcr H1 H2 Hg Hu Hz. rewrite velocity_fin by assumption.
  assert (0 <= cu2 * B / H) by rpos. assert (0 < g * H) by rpos. assert (0 < sqrt (g * H)) by rpos. assert (0 < cu1 * sqrt gc) by rpos.
  unfold invert_for_zXp. nfin. unfold crest_velocity.
  set (w := 1 + cu2 * B / H) in *. assert (0 < w) by (unfold w; lra).
  assert (Sg : sqrt (g * gc / gf) ^ 2 = g * gc / gf) by (apply pow2_sqrt; rpos).
  assert (Pg : 0 < sqrt (g * gc / gf)) by rpos.
  assert (Eq : (u / sqrt (g * H) * (1 / (cu1 * sqrt gc)) * w) ^ 2 * H * gf + Rc = (u * w / (cu1 * sqrt (g * gc / gf))) ^ 2 + Rc).
  { unfold Rdiv. rewrite !Rpow_mult_distr, !Rinv_mult, !Rpow_mult_distr, !pow_inv.
    fold (g * gc / gf). rewrite Sg, !pow2_sqrt by rpos. field. repeat split; try lra. }
  rewrite Eq. set (s := sqrt (g * gc / gf)) in *. split; intros E; injection E as E; f_equal.
  - rewrite <- E. replace (cu1 * s * sqrt (z - Rc) / w * w / (cu1 * s)) with (sqrt (z - Rc)) by (field; lra).
    rewrite pow2_sqrt by lra. ring.
  - rewrite <- E. match goal with |- context [sqrt ?e] => replace e with ((u * w / (cu1 * s)) ^ 2) by ring end.
    rewrite sqrt_pow2 by rpos. field. lra.
Qed.

Example C22_example :
  calculate_maximum_wave_overtopping_velocity_uXp #1 #4 #2.5 #0 #0.5 #0.5 #2 #0.1 #6 = #6
  /\ invert_for_zXp #1 #6 #2.5 #0 #0.5 #0.5 #2 #0.1 #6 = #4.
Proof.
  assert (E : calculate_maximum_wave_overtopping_velocity_uXp #1 #4 #2.5 #0 #0.5 #0.5 #2 #0.1 #6 = #6%num).
  { rewrite velocity_fin by lra. f_equal. unfold crest_velocity.
    replace (2 * sqrt (6 * 0.5 / 0.5) * sqrt (4 - 2.5) / (1 + 0.1 * 0 / 1)) with (2 * (sqrt (6 * 0.5 / 0.5) * sqrt (4 - 2.5))) by (field; lra).
    rewrite <- sqrt_mult by lra. replace (6 * 0.5 / 0.5 * (4 - 2.5)) with (3 * 3) by lra. rewrite sqrt_square; lra. }
  split; [exact E|]. apply C22_inverse; try lra. exact E.
Qed.
