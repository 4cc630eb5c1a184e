(** How the pieces of the loads on caissons respond *)
From Coq Require Import Reals Lra Psatz.
From Verif.Lib Require Import RTac.
From Verif.Spec Require Import Dispersion Response Caisson.
From Verif.Proofs Require Import Dispersion Goda.
Open Scope R_scope.

Lemma higher_mul (P Q : Prop) a b x y : 0 < a -> 0 < x -> higher P a b -> higher Q x y -> higher (P \/ Q) (a * x) (b * y).
Proof.
  intros A X [L S] [L' S']. split; [apply Rmult_le_compat; lra|]. intros [p|q].
  - apply Rlt_le_trans with (b * x); [apply Rmult_lt_compat_r; auto|apply Rmult_le_compat_l; lra].
  - apply Rlt_le_trans with (a * y); [apply Rmult_lt_compat_l; auto|apply Rmult_le_compat_r; specialize (S' q); lra].
Qed.
Lemma higher_add (P Q : Prop) a b x y : higher P a b -> higher Q x y -> higher (P \/ Q) (a + x) (b + y).
Proof. intros [L S] [L' S']. split; [lra|]. intros [p|q]; [specialize (S p)|specialize (S' q)]; lra. Qed.
Lemma higher_weaken (P Q : Prop) a b : (Q -> P) -> higher P a b -> higher Q a b.
Proof. intros I [L S]. split; auto. Qed.
Lemma higher_refl a : higher False a a. Proof. split; [lra|contradiction]. Qed.
Lemma higher_le a b : a <= b -> higher False a b. Proof. split; [assumption|contradiction]. Qed.
Lemma higher_self a b : a <= b -> higher (a < b) a b. Proof. split; auto. Qed.

Lemma cosh_lt x y : 0 <= x < y -> cosh x < cosh y.
Proof.
  intros [X L]. unfold cosh. rewrite !exp_Ropp. assert (A : 1 <= exp x) by (rewrite <- exp_0; destruct X as [X| <-]; [left; apply exp_increasing; assumption|right; reflexivity]).
  assert (B : exp x < exp y) by (apply exp_increasing; assumption). set (a := exp x) in *. set (b := exp y) in *.
  assert (/ b < / a) by (apply Rinv_lt_contravar; nra). assert (0 < / b) by (apply Rinv_0_lt_compat; lra).
  assert (E : / a - / b = (b - a) * (/ a * / b)) by (field; split; lra).
  assert (/ a <= 1) by (rewrite <- Rinv_1; apply Rinv_le_contravar; lra).
  assert (/ a * / b < 1) by nra. nra.
Qed.
Lemma sinh_ratio x y : 0 < x < y -> y / sinh y < x / sinh x.
Proof.
  intros [X L]. pose proof (sinh_pos x X) as Sx. pose proof (sinh_pos y ltac:(lra)) as Sy.
  set (r := x / y). assert (R : 0 < r < 1).
  { unfold r. split; [apply Rdiv_lt_0_compat; lra|]. apply (Rmult_lt_reg_r y); [lra|]. replace (x / y * y) with x by (field; lra). lra. }
  set (f := fun t => r * sinh t - sinh (r * t)).
  assert (D : forall t, derivable_pt_lim f t (r * cosh t - cosh (r * t) * r)).
  { intros t. unfold f. apply (derivable_pt_lim_minus (fun t => r * sinh t) (fun t => sinh (r * t))).
    - apply (derivable_pt_lim_scal sinh r). apply derivable_pt_lim_sinh.
    - apply (derivable_pt_lim_comp (fun t => r * t) sinh); [|apply derivable_pt_lim_sinh].
      pose proof (derivable_pt_lim_scal id r t 1 (derivable_pt_lim_id t)) as S. rewrite Rmult_1_r in S. exact S. }
  set (pr := (fun t => exist _ (r * cosh t - cosh (r * t) * r) (D t)) : derivable f).
  assert (E : f 0 < f y).
  { destruct (MVT_cor1 f 0 y pr ltac:(lra)) as (c & E & Hc). change (derive_pt f c (pr c)) with (r * cosh c - cosh (r * c) * r) in E.
    assert (cosh (r * c) < cosh c) by (apply cosh_lt; split; nra). assert (0 < (r * cosh c - cosh (r * c) * r) * (y - 0)) by (apply Rmult_lt_0_compat; nra). lra. }
  unfold f in E. rewrite Rmult_0_r, sinh_0 in E. replace (r * y) with x in E by (unfold r; field; lra).
  assert (sinh x * y < x * sinh y). { replace (x * sinh y) with (r * sinh y * y) by (unfold r; field; lra). apply Rmult_lt_compat_r; lra. }
  apply (Rmult_lt_reg_r (sinh x * sinh y)); [apply Rmult_lt_0_compat; assumption|].
  replace (y / sinh y * (sinh x * sinh y)) with (sinh x * y) by (field; lra). replace (x / sinh x * (sinh x * sinh y)) with (x * sinh y) by (field; lra). assumption.
Qed.

(** Longer waves have a smaller wave number. *)
Lemma wave_number_lt w w' h g k k' : 0 < h -> 0 < g -> 0 < k -> 0 < k' -> 0 < w -> w <= w' -> dispersion w h g k -> dispersion w' h g k' -> higher (w < w') k k'.
Proof.
  unfold dispersion. intros Hh Hg Hk Hk' Hw L E E'.
  assert (G : forall a b, 0 < a -> a <= b -> g * a * tanh (a * h) <= g * b * tanh (b * h)).
  { intros a b A [B| ->]; [|lra]. assert (tanh (a * h) < tanh (b * h)) by (apply tanh_lt; nra). assert (0 < tanh (a * h)) by (apply tanh_pos; nra).
    apply Rmult_le_compat; nra. }
  split.
  - destruct (Rle_dec k k') as [|N]; [assumption|exfalso]. assert (k' < k) by lra.
    assert (g * k' * tanh (k' * h) < g * k * tanh (k * h)).
    { assert (tanh (k' * h) < tanh (k * h)) by (apply tanh_lt; nra). assert (0 < tanh (k' * h)) by (apply tanh_pos; nra).
      assert (g * k' < g * k) by nra. apply Rmult_gt_0_lt_compat; nra. }
    rewrite <- E, <- E' in *. assert (w * w <= w' * w') by nra. simpl in *. lra.
  - intros S. destruct (Rlt_dec k k') as [|N]; [assumption|exfalso]. pose proof (G k' k Hk' ltac:(lra)) as G1. rewrite <- E, <- E' in G1. simpl in G1. nra.
Qed.

Lemma alpha1_higher k k' h : 0 < h -> 0 < k' <= k -> higher (k' < k) (goda_alpha1 k h) (goda_alpha1 k' h).
Proof.
  intros Hh [K L]. assert (S : k' < k -> goda_alpha1 k h < goda_alpha1 k' h).
  { intros S. unfold goda_alpha1. assert (A : 0 < 2 * k' * h) by (apply Rmult_lt_0_compat; lra). assert (B : 2 * k' * h < 2 * k * h) by (apply Rmult_lt_compat_r; lra).
    pose proof (sinh_ratio _ _ (conj A B)) as R. assert (0 < 2 * k * h / sinh (2 * k * h)) by (apply Rdiv_lt_0_compat; [lra|apply sinh_pos; lra]).
    set (u := 2 * k * h / sinh (2 * k * h)) in *. set (v := 2 * k' * h / sinh (2 * k' * h)) in *. simpl. nra. }
  split; [|assumption]. destruct L as [L| ->]; [left; auto|right; reflexivity].
Qed.
Lemma alpha3_higher k k' h hacc : 0 < h -> 0 <= hacc -> 0 < k' <= k -> goda_alpha3 k h hacc <= goda_alpha3 k' h hacc.
Proof.
  intros Hh A [K L]. unfold goda_alpha3. assert (C : cosh (k' * h) <= cosh (k * h)).
  { destruct L as [L| ->]; [|right; reflexivity]. left. apply cosh_lt. split; [apply Rmult_le_pos; lra|apply Rmult_lt_compat_r; lra]. }
  pose proof (cosh_pos (k' * h)). assert (0 <= hacc / h) by (apply Rmult_le_pos; [lra|left; apply Rinv_0_lt_compat; assumption]).
  assert (1 / cosh (k * h) <= 1 / cosh (k' * h)) by (apply Rmult_le_compat_l; [lra|]; apply Rinv_le_contravar; assumption).
  assert (hacc / h * (1 - 1 / cosh (k' * h)) <= hacc / h * (1 - 1 / cosh (k * h))) by (apply Rmult_le_compat_l; lra). lra.
Qed.
Lemma goda_cos_higher b b' : Rabs b' <= Rabs b <= 90 -> higher (Rabs b' < Rabs b /\ 15 < Rabs b) (goda_cos b) (goda_cos b').
Proof.
  intros [L M]. pose proof (goda_angle_range b M) as A. pose proof (goda_angle_range b' ltac:(lra)) as A'. pose proof PI_RGT_0.
  assert (I : goda_angle b' <= goda_angle b) by (unfold goda_angle; apply Rle_max_compat_r; lra).
  assert (J : forall x, 0 <= x <= 75 -> 0 <= x * PI / 180 <= PI). { intros x X. assert (0 <= x * PI) by (apply Rmult_le_pos; lra). assert (x * PI <= 75 * PI) by (apply Rmult_le_compat_r; lra). lra. }
  pose proof (J _ A) as [J1 J2]. pose proof (J _ A') as [J3 J4]. unfold goda_cos. split.
  - apply cos_decr_1; try assumption. assert (goda_angle b' * PI <= goda_angle b * PI) by (apply Rmult_le_compat_r; lra). lra.
  - intros [S1 S2]. apply cos_decreasing_1; try assumption.
    assert (goda_angle b' < goda_angle b). { unfold goda_angle. rewrite (Rmax_left (Rabs b - 15)) by lra. apply Rmax_lub_lt; lra. }
    assert (goda_angle b' * PI < goda_angle b * PI) by (apply Rmult_lt_compat_r; lra). lra.
Qed.
(** The second coefficient may fall with the wave height, its product with the wave height does not. *)
Lemma alpha2_higher hb hb' d HD HD' : 0 < d <= hb -> hb <= hb' -> 0 < HD <= HD' -> goda_alpha2 hb d HD * HD <= goda_alpha2 hb' d HD' * HD'.
Proof.
  intros [D L] B [P Q]. unfold goda_alpha2.
  assert (E : forall c x, 0 < x -> Rmin (c * (x / d) ^ 2) (2 * d / x) * x = Rmin (c * x ^ 3 / d ^ 2) (2 * d)).
  { intros c x X. replace (c * x ^ 3 / d ^ 2) with (c * (x / d) ^ 2 * x) by (field; lra). replace (2 * d) with (2 * d / x * x) at 2 by (field; lra).
    unfold Rmin. destruct (Rle_dec (c * (x / d) ^ 2) (2 * d / x)) as [A|A], (Rle_dec (c * (x / d) ^ 2 * x) (2 * d / x * x)) as [A'|A']; try reflexivity; exfalso.
    - apply A'. apply Rmult_le_compat_r; lra.
    - apply A. apply (Rmult_le_reg_r x); assumption. }
  rewrite !E by lra. apply Rmin_glb.
  - eapply Rle_trans; [apply Rmin_l|]. unfold Rdiv. apply Rmult_le_compat_r; [left; apply Rinv_0_lt_compat, pow_lt; assumption|].
    apply Rmult_le_compat; [apply Rmult_le_pos; [lra|left; apply Rinv_0_lt_compat; lra]|left; apply pow_lt; assumption| |apply pow_incr; lra].
    replace ((hb - d) * / (3 * hb)) with (1 / 3 - d / 3 * / hb) by (field; lra). replace ((hb' - d) * / (3 * hb')) with (1 / 3 - d / 3 * / hb') by (field; lra).
    assert (/ hb' <= / hb) by (apply Rinv_le_contravar; lra). assert (d / 3 * / hb' <= d / 3 * / hb) by (apply Rmult_le_compat_l; lra). lra.
  - apply Rmin_r.
Qed.

(** The part of the diagram above still water, cut off at the height [r]. *)
Definition cut_force (eta r : R) : R := Rmin eta r * (2 - Rmin eta r / eta).
Definition cut_moment (eta r : R) : R := Rmin eta r ^ 2 * (3 - 2 * (Rmin eta r / eta)).
Lemma cut_force_alt eta r : 0 < eta -> 0 <= r -> cut_force eta r = if Rlt_dec r eta then r * (2 - r / eta) else eta.
Proof. intros. unfold cut_force. destruct (Rlt_dec r eta); [rewrite Rmin_right by lra; reflexivity|]. rewrite Rmin_left by lra. field. lra. Qed.
Lemma cut_moment_alt eta r : 0 < eta -> 0 <= r -> cut_moment eta r = if Rlt_dec r eta then r ^ 2 * (3 - 2 * (r / eta)) else eta ^ 2.
Proof. intros. unfold cut_moment. destruct (Rlt_dec r eta); [rewrite Rmin_right by lra; reflexivity|]. rewrite Rmin_left by lra. field. lra. Qed.
Lemma ratio_le1 r eta : 0 < eta -> 0 <= r -> r < eta -> 0 <= r / eta < 1.
Proof. intros. split; [apply Rmult_le_pos; [lra|left; apply Rinv_0_lt_compat; lra]|]. apply (Rmult_lt_reg_r eta); [lra|]. replace (r / eta * eta) with r by (field; lra). lra. Qed.

Lemma cut_force_eta eta eta' r : 0 < eta <= eta' -> 0 <= r -> 0 <= cut_force eta r <= cut_force eta' r.
Proof.
  intros [E L] R. rewrite !cut_force_alt by lra. destruct (Rlt_dec r eta) as [A|A], (Rlt_dec r eta') as [A'|A']; try lra.
  - pose proof (ratio_le1 r eta E R A). pose proof (ratio_le1 r eta' ltac:(lra) R A').
    assert (r / eta' <= r / eta) by (apply Rmult_le_compat_l; [lra|]; apply Rinv_le_contravar; lra). split; [apply Rmult_le_pos; lra|apply Rmult_le_compat_l; lra].
  - pose proof (ratio_le1 r eta' ltac:(lra) R A'). split; [lra|]. assert (r <= r * (2 - r / eta')); [|lra].
    rewrite <- (Rmult_1_r r) at 1. apply Rmult_le_compat_l; lra.
Qed.
Lemma cut_force_r eta r r' : 0 < eta -> 0 <= r <= r' -> higher (r < r' /\ r < eta) (cut_force eta r) (cut_force eta r').
Proof.
  intros E [R L]. unfold cut_force.
  assert (A : 0 <= Rmin eta r <= Rmin eta r'). { split; [apply Rmin_glb; lra|]. apply Rle_min_compat_l. assumption. }
  assert (B : r < r' /\ r < eta -> Rmin eta r < Rmin eta r') by (intros [? ?]; rewrite (Rmin_right eta r) by lra; apply Rmin_glb_lt; lra).
  pose proof (Rmin_l eta r'). set (x := Rmin eta r) in *. set (y := Rmin eta r') in *.
  assert (F : y * (2 - y / eta) - x * (2 - x / eta) = (y - x) * ((eta - x) + (eta - y)) * / eta) by (field; lra).
  assert (0 < / eta) by (apply Rinv_0_lt_compat; lra). split.
  - assert (0 <= (y - x) * ((eta - x) + (eta - y)) * / eta) by (apply Rmult_le_pos; [apply Rmult_le_pos; lra|lra]). lra.
  - intros S. specialize (B S). assert (0 < (y - x) * ((eta - x) + (eta - y)) * / eta) by (apply Rmult_lt_0_compat; [apply Rmult_lt_0_compat; lra|lra]). lra.
Qed.
Lemma cut_moment_eta eta eta' r : 0 < eta <= eta' -> 0 <= r -> 0 <= cut_moment eta r <= cut_moment eta' r.
Proof.
  intros [E L] R. rewrite !cut_moment_alt by lra. destruct (Rlt_dec r eta) as [A|A], (Rlt_dec r eta') as [A'|A']; try lra.
  - pose proof (ratio_le1 r eta E R A). pose proof (ratio_le1 r eta' ltac:(lra) R A'). pose proof (pow2_ge_0 r).
    assert (r / eta' <= r / eta) by (apply Rmult_le_compat_l; [lra|]; apply Rinv_le_contravar; lra). split; [apply Rmult_le_pos; lra|apply Rmult_le_compat_l; lra].
  - pose proof (ratio_le1 r eta' ltac:(lra) R A'). split; [apply pow2_ge_0|]. assert (eta ^ 2 <= r ^ 2) by (apply pow_incr; lra). pose proof (pow2_ge_0 r).
    assert (r ^ 2 <= r ^ 2 * (3 - 2 * (r / eta'))); [|lra]. rewrite <- (Rmult_1_r (r ^ 2)) at 1. apply Rmult_le_compat_l; lra.
  - split; [apply pow2_ge_0|apply pow_incr; lra].
Qed.
Lemma cut_moment_r eta r r' : 0 < eta -> 0 <= r <= r' -> cut_moment eta r <= cut_moment eta r'.
Proof.
  intros E [R L]. unfold cut_moment.
  assert (A : 0 <= Rmin eta r <= Rmin eta r'). { split; [apply Rmin_glb; lra|]. apply Rle_min_compat_l. assumption. }
  pose proof (Rmin_l eta r'). set (x := Rmin eta r) in *. set (y := Rmin eta r') in *.
  assert (F : y ^ 2 * (3 - 2 * (y / eta)) - x ^ 2 * (3 - 2 * (x / eta)) = (y - x) * (3 * (y + x) * eta - 2 * (y * y + x * y + x * x)) * / eta) by (field; lra).
  assert (0 < / eta) by (apply Rinv_0_lt_compat; lra).
  assert (0 <= 3 * (y + x) * eta - 2 * (y * y + x * y + x * x)) by nra.
  assert (0 <= (y - x) * (3 * (y + x) * eta - 2 * (y * y + x * y + x * x)) * / eta) by (apply Rmult_le_pos; [apply Rmult_le_pos; lra|lra]). lra.
Qed.

(** The pressure at the heel for the load [W] with moment [M] on a base of width [B]. *)
Definition heel (W M B : R) : R := if Rle_dec (M / W) (1 / 3 * B) then 2 * W / (3 * (M / W)) else 2 * W / B * (2 - 3 * (M / W / B)).
(** Less weight on the base, and more of the moment about the heel taken by the waves: more pressure. *)
Lemma heel_higher W M B F N : 0 < B -> 0 <= F -> 0 <= N -> 0 < W - F -> 0 < M - 2 / 3 * B * F - N ->
  higher (0 < N) (heel W M B) (heel (W - F) (M - 2 / 3 * B * F - N) B).
Proof.
  intros HB HF HN HW HM. set (W' := W - F) in *. set (M' := M - 2 / 3 * B * F - N) in *.
  assert (W0 : 0 < W) by (unfold W' in HW; lra). assert (BF : 0 <= B * F) by (apply Rmult_le_pos; lra). assert (M0 : 0 < M) by (unfold M' in HM; lra).
  assert (D : exists l, 3 / B <= l /\ heel W M B = 2 / 3 * (2 * l * W - l ^ 2 * M) /\ 2 / 3 * (2 * l * W' - l ^ 2 * M') <= heel W' M' B).
  { assert (C : forall w m, 0 < w -> 0 < m -> (m / w <= 1 / 3 * B <-> 3 / B <= w / m)).
    { intros w m Hw Hm. assert (E : 3 / B <= w / m <-> 3 * m <= B * w).
      { split; intros I.
        - apply (Rmult_le_compat_r (B * m)) in I; [|apply Rmult_le_pos; lra]. replace (3 / B * (B * m)) with (3 * m) in I by (field; lra). replace (w / m * (B * m)) with (B * w) in I by (field; lra). lra.
        - apply (Rmult_le_reg_r (B * m)); [apply Rmult_lt_0_compat; lra|]. replace (3 / B * (B * m)) with (3 * m) by (field; lra). replace (w / m * (B * m)) with (B * w) by (field; lra). lra. }
      rewrite E. split; intros I.
      - apply (Rmult_le_compat_r (3 * w)) in I; [|lra]. replace (m / w * (3 * w)) with (3 * m) in I by (field; lra). replace (1 / 3 * B * (3 * w)) with (B * w) in I by (field; lra). lra.
      - apply (Rmult_le_reg_r (3 * w)); [lra|]. replace (m / w * (3 * w)) with (3 * m) by (field; lra). replace (1 / 3 * B * (3 * w)) with (B * w) by (field; lra). lra. }
    assert (Q : forall l, 2 / 3 * (2 * l * W' - l ^ 2 * M') <= 2 * W' / (3 * (M' / W'))).
    { intros l. replace (2 * W' / (3 * (M' / W'))) with (2 / 3 * (W' ^ 2 / M')) by (field; lra). apply Rmult_le_compat_l; [lra|].
      assert (E : W' ^ 2 / M' - (2 * l * W' - l ^ 2 * M') = (W' - l * M') ^ 2 / M') by (field; lra).
      assert (0 <= (W' - l * M') ^ 2 / M') by (apply Rmult_le_pos; [apply pow2_ge_0|left; apply Rinv_0_lt_compat; lra]). lra. }
    unfold heel. destruct (Rle_dec (M / W) (1 / 3 * B)) as [I|I].
    - exists (W / M). split; [apply C; assumption|]. split; [field; lra|].
      assert (I' : M' / W' <= 1 / 3 * B).
      { apply (Rmult_le_compat_r W) in I; [|lra]. replace (M / W * W) with M in I by (field; lra).
        apply (Rmult_le_reg_r W'); [lra|]. replace (M' / W' * W') with M' by (field; lra). unfold M', W'. nra. }
      destruct (Rle_dec (M' / W') (1 / 3 * B)); [apply Q|contradiction].
    - exists (3 / B). split; [lra|]. split; [field; lra|]. destruct (Rle_dec (M' / W') (1 / 3 * B)); [apply Q|]. right. field. lra. }
  destruct D as (l & Hl & E & L). rewrite E.
  assert (0 < 3 / B) by (apply Rdiv_lt_0_compat; lra). assert (l0 : 0 < l) by lra.
  assert (LB : 3 <= l * B). { apply (Rmult_le_compat_r B) in Hl; [|lra]. replace (3 / B * B) with 3 in Hl by (field; lra). lra. }
  assert (G : 2 / 3 * (2 * l * W' - l ^ 2 * M') = 2 / 3 * (2 * l * W - l ^ 2 * M) + 2 / 3 * l * (2 / 3 * F * (l * B - 3) + l * N)) by (unfold W', M'; field).
  assert (0 <= F * (l * B - 3)) by (apply Rmult_le_pos; lra).
  split.
  - assert (0 <= l * N) by (apply Rmult_le_pos; lra). assert (0 <= 2 / 3 * l * (2 / 3 * F * (l * B - 3) + l * N)) by (apply Rmult_le_pos; lra). lra.
  - intros S. assert (0 < l * N) by (apply Rmult_lt_0_compat; lra). assert (0 < 2 / 3 * l * (2 / 3 * F * (l * B - 3) + l * N)) by (apply Rmult_lt_0_compat; lra). lra.
Qed.
