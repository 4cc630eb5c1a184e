(** How the pieces of the overtopping formulas respond to wave height and period *)
From Coq Require Import Reals Lra Lia Psatz.
From Verif.Lib Require Import RTac.
From Verif.Spec Require Import Waves Overtopping Taw.
Open Scope R_scope.

Lemma iribarren_height g H T t : 0 < g -> 0 < H -> 0 < T -> iribarren g H T t = iribarren g 1 T t / sqrt H.
Proof.
  intros. unfold iribarren. assert (P : 0 < steepness g 1 T) by (unfold steepness; pose proof PI_RGT_0; apply Rdiv_lt_0_compat; [nra|apply Rmult_lt_0_compat; [assumption|apply pow_lt; assumption]]).
  replace (steepness g H T) with (steepness g 1 T * H) by (unfold steepness; field; split; [|lra]; lra).
  rewrite sqrt_mult by lra. field. split; apply Rgt_not_eq, sqrt_lt_R0; assumption.
Qed.
Lemma iribarren_pos g H T t : 0 < g -> 0 < H -> 0 < T -> 0 < t -> 0 < iribarren g H T t.
Proof.
  intros. unfold iribarren, steepness. pose proof PI_RGT_0. apply Rdiv_lt_0_compat; [assumption|]. apply sqrt_lt_R0, Rdiv_lt_0_compat; [nra|].
  apply Rmult_lt_0_compat; [assumption|apply pow_lt; assumption].
Qed.
Lemma iribarren_period g H T t : 0 < g -> 0 < H -> 0 < T -> iribarren g H T t = T * iribarren g H 1 t.
Proof.
  intros. unfold iribarren. assert (P : 0 < steepness g H 1) by (unfold steepness; pose proof PI_RGT_0; apply Rdiv_lt_0_compat; [nra|apply Rmult_lt_0_compat; [assumption|apply pow_lt; lra]]).
  replace (steepness g H T) with (steepness g H 1 / (T * T)) by (unfold steepness; field; lra).
  rewrite sqrt_div by (try apply Rmult_lt_0_compat; lra). rewrite sqrt_square by lra. assert (0 < sqrt (steepness g H 1)) by (apply sqrt_lt_R0; assumption). field. lra.
Qed.
Lemma q_unit_lt g H H' : 0 < g -> 0 < H < H' -> q_unit g H < q_unit g H'.
Proof.
  intros G [P L]. unfold q_unit. apply sqrt_lt_1_alt. assert (0 < H ^ 3) by (apply pow_lt; lra).
  assert (H * H < H' * H') by nra. assert (H ^ 3 < H' ^ 3) by (replace (H ^ 3) with (H * (H * H)) by ring; replace (H' ^ 3) with (H' * (H' * H')) by ring; nra). nra.
Qed.
Lemma q_unit_pos g H : 0 < g -> 0 < H -> 0 < q_unit g H.
Proof. intros. unfold q_unit. apply sqrt_lt_R0, Rmult_lt_0_compat; [assumption|apply pow_lt; assumption]. Qed.

(** ** Roughness without a berm *)
Section Rough.
Variables gf K : R.
Hypotheses (G : 0 < gf <= 1) (HK : 0 < K).
Let b := (1 - gf) / 8.2.
Let a := gf - 1.8 * b.
Let r u := taw_roughness gf 1 (K / u).

Lemma rough_cases u : 0 < u -> (u < K / 10 /\ r u = gf) \/ (K / 10 <= u <= K / 1.8 /\ r u = a + b * (K / u)) \/ (K / 1.8 < u /\ r u = gf).
Proof.
  intros U. unfold r, taw_roughness. rewrite Rmult_1_l.
  assert (A : forall c, 0 < c -> (c <= K / u <-> u <= K / c)).
  { intros c C. split; intros E.
    - apply (Rmult_le_reg_r (/ u)); [apply Rinv_0_lt_compat; lra|]. apply (Rmult_le_reg_l c); [lra|]. replace (c * (u * / u)) with c by (field; lra). replace (c * (K / c * / u)) with (K / u) by (field; lra). exact E.
    - apply (Rmult_le_reg_r u); [lra|]. apply (Rmult_le_reg_r (/ c)); [apply Rinv_0_lt_compat; lra|]. replace (c * u * / c) with u by (field; lra). replace (K / u * u * / c) with (K / c) by (field; lra). exact E. }
  destruct (Rle_dec 1.8 (K / u)) as [E|E]; [destruct (Rle_dec (K / u) 10) as [F|F]|].
  - right; left. apply A in E; [|lra]. split.
    + split; [|exact E]. destruct (Rle_dec (K / 10) u) as [?|N]; [assumption|]. exfalso. assert (10 <= K / u) by (apply A; lra). assert (K / u = 10) by lra. apply N. replace K with (K / u * u) by (field; lra). rewrite H0. lra.
    + unfold a, b. dec. field. lra.
  - left. split; [|reflexivity]. destruct (Rlt_dec u (K / 10)) as [?|N]; [assumption|]. exfalso. apply F.
    apply (Rmult_le_reg_r u); [lra|]. replace (K / u * u) with K by (field; lra). lra.
  - right; right. split; [|reflexivity]. rewrite A in E by lra. lra.
Qed.
Lemma b_nonneg : 0 <= b. Proof. unfold b. lra. Qed.
Lemma rough_ge u : 0 < u -> gf <= r u.
Proof.
  intros U. destruct (rough_cases u U) as [[_ ->]|[[E ->]|[_ ->]]]; try lra. pose proof b_nonneg. unfold a.
  assert (1.8 <= K / u). { apply (Rmult_le_reg_r u); [lra|]. replace (K / u * u) with K by (field; lra). lra. } nra.
Qed.

(** With the square root [u] of the wave height *)
Lemma rough_height u v : 0.1 <= gf -> 0 < u < v -> u * u * r u < v * v * r v.
Proof.
  intros F [U V]. pose proof b_nonneg as B. pose proof (rough_ge v ltac:(lra)) as RG.
  assert (M : forall x y, 0 < x < y -> y <= K / 1.8 -> a * x * x + b * K * x < a * y * y + b * K * y).
  { intros x y XY Y. enough (0 < a * (x + y) + b * K) by nra. destruct (Rle_dec 0 a) as [A|A].
    - assert (gf = a + 1.8 * b) by (unfold a; lra). nra.
    - assert (0 < b * 1.8 - a * (-2) \/ True) by (right; trivial). assert (X : x + y < 2 * (K / 1.8)) by lra.
      assert (a * (2 * (K / 1.8)) < a * (x + y)) by nra. assert (0 <= a * 2 + b * 1.8) by (unfold a, b; lra). nra. }
  destruct (rough_cases u U) as [[E ->]|[[E ->]|[E ->]]].
  - assert (u * u < v * v) by nra. nra.
  - replace (u * u * (a + b * (K / u))) with (a * u * u + b * K * u) by (field; lra).
    destruct (rough_cases v ltac:(lra)) as [[E' _]|[[E' ->]|[E' ->]]]; [lra| |].
    + replace (v * v * (a + b * (K / v))) with (a * v * v + b * K * v) by (field; lra). apply M; lra.
    + apply Rle_lt_trans with (K / 1.8 * (K / 1.8) * gf); [|assert (0 < K / 1.8) by lra; assert (K / 1.8 * (K / 1.8) < v * v) by nra; nra].
      replace (K / 1.8 * (K / 1.8) * gf) with (a * (K / 1.8) * (K / 1.8) + b * K * (K / 1.8)) by (unfold a; dec; field).
      destruct (Rle_lt_or_eq_dec u (K / 1.8)) as [N|N]; [lra|left; apply M; lra|rewrite N; lra].
  - destruct (rough_cases v ltac:(lra)) as [[E' _]|[[E' _]|[E' ->]]]; [lra|lra|]. assert (u * u < v * v) by nra. nra.
Qed.

Lemma rough_height_slope u v : 0.18 <= gf -> 0 < u < v -> u * r u <= v * r v.
Proof.
  intros F [U V]. pose proof b_nonneg as B. pose proof (rough_ge v ltac:(lra)) as RG. assert (A : 0 <= a) by (unfold a, b; lra).
  destruct (rough_cases u U) as [[E ->]|[[E ->]|[E ->]]].
  - nra.
  - replace (u * (a + b * (K / u))) with (a * u + b * K) by (field; lra).
    destruct (rough_cases v ltac:(lra)) as [[E' _]|[[E' ->]|[E' ->]]]; [lra| |].
    + replace (v * (a + b * (K / v))) with (a * v + b * K) by (field; lra). nra.
    + apply Rle_trans with (K / 1.8 * gf); [|nra]. replace (K / 1.8 * gf) with (a * (K / 1.8) + b * K) by (unfold a; dec; field). nra.
  - destruct (rough_cases v ltac:(lra)) as [[E' _]|[[E' _]|[E' ->]]]; [lra|lra|]. nra.
Qed.
(** With the period: [u] is its inverse *)
Lemma rough_period u v : K / 10 <= u -> 0 < u < v -> r v <= r u.
Proof.
  intros F [U V]. pose proof b_nonneg as B. pose proof (rough_ge u U) as RG.
  destruct (rough_cases v ltac:(lra)) as [[E ->]|[[E ->]|[E ->]]]; [lra| |lra].
  destruct (rough_cases u U) as [[E' _]|[[E' ->]|[E' ->]]]; [lra| |lra].
  assert (/ v < / u) by (apply Rinv_lt_contravar; nra). unfold Rdiv. assert (K * / v <= K * / u) by nra. nra.
Qed.
End Rough.

(** ** Exponentials *)
Lemma exp_le x y : x <= y -> exp x <= exp y.
Proof. intros [L| ->]; [left; apply exp_increasing, L|lra]. Qed.
Lemma pow13_le x y : x <= y -> pow13 x <= pow13 y.
Proof.
  intros L. unfold pow13. destruct (Rlt_dec 0 x), (Rlt_dec 0 y); try lra.
  - apply Rle_Rpower_l; lra.
  - left. apply exp_pos.
Qed.
Lemma quotient_le c x y : 0 <= c -> 0 < x <= y -> c / y <= c / x.
Proof. intros C [X Y]. unfold Rdiv. apply Rmult_le_compat_l; [exact C|]. apply Rinv_le_contravar; assumption. Qed.

(** ** Run-up *)
Lemma quartic_lt c2 c3 x y : 0 < c3 -> 2 * c3 <= c2 -> 0 < x < y -> y <= 1.59 -> x ^ 4 * (c2 - c3 * x) < y ^ 4 * (c2 - c3 * y).
Proof.
  intros C3 C2 [X L] Y.
  assert (E : y ^ 4 * (c2 - c3 * y) - x ^ 4 * (c2 - c3 * x) = (y - x) * ((c2 - 2 * c3) * (y ^ 3 + y ^ 2 * x + y * x ^ 2 + x ^ 3)
    + c3 * (2 * (y ^ 3 + y ^ 2 * x + y * x ^ 2 + x ^ 3) - (y ^ 4 + y ^ 3 * x + y ^ 2 * x ^ 2 + y * x ^ 3 + x ^ 4)))) by ring.
  assert (X2 : 0 < x ^ 2) by (apply pow_lt; lra). assert (X3 : 0 < x ^ 3) by (apply pow_lt; lra). assert (Y2 : 0 < y ^ 2) by (apply pow_lt; lra). assert (Y3 : 0 < y ^ 3) by (apply pow_lt; lra).
  assert (A1 : 0 < y ^ 2 * x) by (apply Rmult_lt_0_compat; lra). assert (A2 : 0 < y * x ^ 2) by (apply Rmult_lt_0_compat; lra).
  assert (B1 : y ^ 4 <= 1.59 * y ^ 3) by (replace (y ^ 4) with (y * y ^ 3) by ring; apply Rmult_le_compat_r; lra).
  assert (B2 : y ^ 3 * x <= 1.59 * (y ^ 2 * x)) by (replace (y ^ 3 * x) with (y * (y ^ 2 * x)) by ring; apply Rmult_le_compat_r; lra).
  assert (B3 : y ^ 2 * x ^ 2 <= 1.59 * (y * x ^ 2)) by (replace (y ^ 2 * x ^ 2) with (y * (y * x ^ 2)) by ring; apply Rmult_le_compat_r; lra).
  assert (B4 : y * x ^ 3 <= 1.59 * x ^ 3) by (apply Rmult_le_compat_r; lra).
  assert (B5 : x ^ 4 <= 1.59 * x ^ 3) by (replace (x ^ 4) with (x * x ^ 3) by ring; apply Rmult_le_compat_r; lra).
  assert (D1 : x ^ 3 <= y * x ^ 2) by (replace (x ^ 3) with (x * x ^ 2) by ring; apply Rmult_le_compat_r; lra).
  assert (D2 : y * x ^ 2 <= y ^ 2 * x) by (replace (y * x ^ 2) with (x * (y * x)) by ring; replace (y ^ 2 * x) with (y * (y * x)) by ring; apply Rmult_le_compat_r; [apply Rmult_le_pos|]; lra).
  assert (D3 : y ^ 2 * x <= y ^ 3) by (replace (y ^ 3) with (y ^ 2 * y) by ring; apply Rmult_le_compat_l; lra).
  assert (P : 0 < 2 * (y ^ 3 + y ^ 2 * x + y * x ^ 2 + x ^ 3) - (y ^ 4 + y ^ 3 * x + y ^ 2 * x ^ 2 + y * x ^ 3 + x ^ 4)) by lra.
  assert (P1 : 0 <= (c2 - 2 * c3) * (y ^ 3 + y ^ 2 * x + y * x ^ 2 + x ^ 3)) by (apply Rmult_le_pos; lra).
  assert (P2 : 0 < c3 * (2 * (y ^ 3 + y ^ 2 * x + y * x ^ 2 + x ^ 3) - (y ^ 4 + y ^ 3 * x + y ^ 2 * x ^ 2 + y * x ^ 3 + x ^ 4))) by (apply Rmult_lt_0_compat; lra).
  assert (0 < y ^ 4 * (c2 - c3 * y) - x ^ 4 * (c2 - c3 * x)) by (rewrite E; apply Rmult_lt_0_compat; lra). lra.
Qed.
Lemma square_lt c2 c3 x y : 0 < c3 -> 2 * c3 <= c2 -> 0 < x < y -> y <= 1 -> x ^ 2 * (c2 - c3 * x) < y ^ 2 * (c2 - c3 * y).
Proof.
  intros C3 C2 [X L] Y.
  assert (E : y ^ 2 * (c2 - c3 * y) - x ^ 2 * (c2 - c3 * x) = (y - x) * ((c2 - 2 * c3) * (y + x) + c3 * (2 * (y + x) - (y ^ 2 + y * x + x ^ 2)))) by ring.
  assert (y ^ 2 <= y) by nra. assert (x ^ 2 <= x) by nra. assert (y * x <= x) by nra.
  assert (0 <= (c2 - 2 * c3) * (y + x)) by (apply Rmult_le_pos; lra). assert (0 < c3 * (2 * (y + x) - (y ^ 2 + y * x + x ^ 2))) by (apply Rmult_lt_0_compat; lra).
  assert (0 < y ^ 2 * (c2 - c3 * y) - x ^ 2 * (c2 - c3 * x)) by (rewrite E; apply Rmult_lt_0_compat; lra). lra.
Qed.

Section RoughRunup.
Variables gf K c2 c3 : R.
Hypotheses (G : 0.18 <= gf <= 1) (HK : 0 < K) (C3 : 0 < c3) (C2 : 2 * c3 <= c2).
Let r u := taw_roughness gf 1 (K / u).

Lemma rough_slope_lt u v : 0.18 < gf -> 0 < u < v -> u * r u < v * r v.
Proof.
  intros F [U V]. set (b := (1 - gf) / 8.2). set (a := gf - 1.8 * b). assert (A : 0 < a) by (unfold a, b; lra). assert (B : 0 <= b) by (unfold b; lra).
  pose proof (rough_ge gf K ltac:(lra) v ltac:(lra)) as RG. change (gf <= r v) in RG. assert (Cu : (u < K / 10 /\ r u = gf) \/ (K / 10 <= u <= K / 1.8 /\ r u = a + b * (K / u)) \/ (K / 1.8 < u /\ r u = gf)) by exact (rough_cases gf K u U). assert (Cv : (v < K / 10 /\ r v = gf) \/ (K / 10 <= v <= K / 1.8 /\ r v = a + b * (K / v)) \/ (K / 1.8 < v /\ r v = gf)) by (apply (rough_cases gf K v); lra).
  destruct Cu as [[E ->]|[[E ->]|[E ->]]].
  - apply Rlt_le_trans with (v * gf); [apply Rmult_lt_compat_r; lra|apply Rmult_le_compat_l; lra].
  - replace (u * (a + b * (K / u))) with (a * u + b * K) by (field; lra).
    destruct Cv as [[E' _]|[[E' ->]|[E' ->]]]; [lra| |].
    + replace (v * (a + b * (K / v))) with (a * v + b * K) by (field; lra). assert (a * u < a * v) by (apply Rmult_lt_compat_l; lra). lra.
    + apply Rle_lt_trans with (K / 1.8 * gf); [|apply Rmult_lt_compat_r; lra]. replace (K / 1.8 * gf) with (a * (K / 1.8) + b * K) by (unfold a; dec; field).
      assert (a * u <= a * (K / 1.8)) by (apply Rmult_le_compat_l; lra). lra.
  - destruct Cv as [[E' _]|[[E' _]|[E' ->]]]; [lra|lra|]. apply Rmult_lt_compat_r; lra.
Qed.

Let x_of u := sqrt (u / K).
Let m u := r u * (u * u) * (c2 - c3 * x_of u).
Lemma rough_max_lt u v : 0 < u < v -> v <= K / 0.4 -> m u < m v.
Proof.
  intros [U V] V4. set (b := (1 - gf) / 8.2). set (a := gf - 1.8 * b). assert (A : 0 <= a) by (unfold a, b; lra). assert (B : 0 <= b) by (unfold b; lra).
  pose proof (rough_ge gf K ltac:(lra) v ltac:(lra)) as RG. change (gf <= r v) in RG. assert (Cu : (u < K / 10 /\ r u = gf) \/ (K / 10 <= u <= K / 1.8 /\ r u = a + b * (K / u)) \/ (K / 1.8 < u /\ r u = gf)) by exact (rough_cases gf K u U). assert (Cv : (v < K / 10 /\ r v = gf) \/ (K / 10 <= v <= K / 1.8 /\ r v = a + b * (K / v)) \/ (K / 1.8 < v /\ r v = gf)) by (apply (rough_cases gf K v); lra).
  assert (X : forall w, 0 < w -> 0 < x_of w /\ w = K * x_of w ^ 2).
  { intros w W. assert (0 < w / K) by (apply Rdiv_lt_0_compat; lra). split; [apply sqrt_lt_R0; assumption|]. unfold x_of. rewrite pow2_sqrt by lra. field. lra. }
  assert (XL : forall w w', 0 < w -> w < w' -> x_of w < x_of w').
  { intros w w' W W'. apply sqrt_lt_1_alt. split; [apply Rmult_le_pos; [lra|left; apply Rinv_0_lt_compat; lra]|]. apply Rmult_lt_compat_r; [apply Rinv_0_lt_compat; lra|assumption]. }
  assert (X4 : x_of v <= 1.59).
  { apply Rle_trans with (sqrt (1.59 * 1.59)); [|rewrite sqrt_square by lra; lra]. apply sqrt_le_1_alt. apply (Rmult_le_reg_r K); [lra|]. replace (v / K * K) with v by (field; lra). lra. }
  assert (X1 : forall w, 0 < w -> w <= K / 1.8 -> x_of w <= 1).
  { intros w W W'. apply Rle_trans with (sqrt 1); [|rewrite sqrt_1; lra]. apply sqrt_le_1_alt. apply (Rmult_le_reg_r K); [lra|]. replace (w / K * K) with w by (field; lra). lra. }
  destruct (X u U) as [Xu Eu]. destruct (X v ltac:(lra)) as [Xv Ev]. pose proof (XL u v U V) as Xuv.
  assert (K2 : 0 < K * K) by (apply Rmult_lt_0_compat; assumption).
  assert (M0 : forall w, 0 < w -> gf * (w * w) * (c2 - c3 * x_of w) = K * K * (gf * (x_of w ^ 4 * (c2 - c3 * x_of w)))).
  { intros w W. destruct (X w W) as [_ E]. rewrite E at 1 2. ring. }
  assert (M1 : forall w, 0 < w -> (a + b * (K / w)) * (w * w) * (c2 - c3 * x_of w) = K * K * (a * (x_of w ^ 4 * (c2 - c3 * x_of w)) + b * (x_of w ^ 2 * (c2 - c3 * x_of w)))).
  { intros w W. destruct (X w W) as [_ E]. replace ((a + b * (K / w)) * (w * w)) with (a * (w * w) + b * K * w) by (field; lra). rewrite E at 1 2 3. ring. }
  assert (Q4 : forall x y, 0 < x < y -> y <= 1.59 -> K * K * (gf * (x ^ 4 * (c2 - c3 * x))) < K * K * (gf * (y ^ 4 * (c2 - c3 * y)))).
  { intros. apply Rmult_lt_compat_l; [assumption|]. apply Rmult_lt_compat_l; [lra|]. apply quartic_lt; assumption. }
  assert (Q2 : forall x y, 0 < x < y -> y <= 1 -> K * K * (a * (x ^ 4 * (c2 - c3 * x)) + b * (x ^ 2 * (c2 - c3 * x))) < K * K * (a * (y ^ 4 * (c2 - c3 * y)) + b * (y ^ 2 * (c2 - c3 * y)))).
  { intros x y XY Y. apply Rmult_lt_compat_l; [assumption|]. pose proof (quartic_lt c2 c3 x y C3 C2 XY ltac:(lra)) as I4. pose proof (square_lt c2 c3 x y C3 C2 XY Y) as I2.
    assert (a * (x ^ 4 * (c2 - c3 * x)) <= a * (y ^ 4 * (c2 - c3 * y))) by (apply Rmult_le_compat_l; lra). assert (b * (x ^ 2 * (c2 - c3 * x)) <= b * (y ^ 2 * (c2 - c3 * y))) by (apply Rmult_le_compat_l; lra).
    destruct (Rlt_dec 0 a) as [N|N].
    - assert (a * (x ^ 4 * (c2 - c3 * x)) < a * (y ^ 4 * (c2 - c3 * y))) by (apply Rmult_lt_compat_l; lra). lra.
    - assert (0 < b) by (unfold a in N, A; lra). assert (b * (x ^ 2 * (c2 - c3 * x)) < b * (y ^ 2 * (c2 - c3 * y))) by (apply Rmult_lt_compat_l; lra). lra. }
  assert (Fv : 0 < c2 - c3 * x_of v) by (assert (c3 * x_of v <= c3 * 1.59) by (apply Rmult_le_compat_l; lra); lra).
  unfold m. destruct Cu as [[E ->]|[[E ->]|[E ->]]].
  - apply Rlt_le_trans with (gf * (v * v) * (c2 - c3 * x_of v)); [rewrite !M0 by lra; apply Q4; lra|].
    apply Rmult_le_compat_r; [lra|]. apply Rmult_le_compat_r; [apply Rmult_le_pos; lra|lra].
  - destruct Cv as [[E' _]|[[E' ->]|[E' ->]]]; [lra| |].
    + rewrite !M1 by lra. apply Q2; [lra|]. apply X1; lra.
    + set (w := K / 1.8). assert (W : 0 < w) by (unfold w; lra).
      apply Rle_lt_trans with (gf * (w * w) * (c2 - c3 * x_of w)).
      * replace (gf * (w * w) * (c2 - c3 * x_of w)) with ((a + b * (K / w)) * (w * w) * (c2 - c3 * x_of w)).
        { rewrite !M1 by lra. destruct (Rle_lt_or_eq_dec u w) as [N|N]; [unfold w; lra| |rewrite N; lra]. left. apply Q2; [pose proof (XL u w U N); lra|apply X1; unfold w; lra]. }
        { f_equal. f_equal. replace (K / w) with 1.8 by (unfold w; dec; field; lra). unfold a. lra. }
      * rewrite !M0 by lra. apply Q4; [|assumption]. pose proof (XL w v W E'). pose proof (X w W). lra.
  - destruct Cv as [[E' _]|[[E' _]|[E' ->]]]; [lra|lra|]. rewrite !M0 by lra. apply Q4; lra.
Qed.
End RoughRunup.
