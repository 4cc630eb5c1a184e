(** Property C74: the stability coefficients as functions of the seabed slope,
    in double precision. *)
From Coq Require Import Reals Lra Lia List Bool ZArith.
From Verif.Lib Require Import Num Monad RTac NTac Table Binary64.
From Verif.Spec Require Import Armour.
From Verif.Model Require Import HudsonUnits KD64.
From Verif.Props Require Import Hudson.
Import ListNotations.
Open Scope R_scope.

(** ** Computing with powers of two *)
Lemma pow2_minus n : (0 <= n)%Z -> pow2 (- n) = / IZR (2 ^ n).
Proof.
  intros H. rewrite <- pow2_Z by assumption. apply Rmult_eq_reg_l with (pow2 n); [|pose proof (pow2_pos n); lra].
  rewrite <- pow2_add. replace (n + - n)%Z with 0%Z by lia. rewrite pow2_0, Rinv_r; [reflexivity|].
  pose proof (pow2_pos n). lra.
Qed.
Ltac eval_pow2 :=
  repeat match goal with
  | |- context [pow2 ?e] =>
      let v := eval vm_compute in e in
      change (pow2 e) with (pow2 v);
      lazymatch v with
      | Zneg ?p => let w := eval vm_compute in (2 ^ Zpos p)%Z in
                   change (pow2 v) with (pow2 (- Zpos p)); rewrite (pow2_minus (Zpos p)) by lia;
                   change (2 ^ Zpos p)%Z with w
      | _ => let w := eval vm_compute in (2 ^ v)%Z in rewrite (pow2_Z v) by lia; change (2 ^ v)%Z with w
      end
  end.
Ltac round_tac e n :=
  rewrite (round64_is e n); [|split|apply Rabs_def1]; eval_pow2; try lra.

Lemma round_int n : (Z.abs n <= 2 ^ 53)%Z -> round64 (IZR n) = IZR n.
Proof. intros. apply round64_exact. exists n, 0%Z. split; [assumption|]. rewrite pow2_0. ring. Qed.
Lemma round_dyadic n k : (Z.abs n <= 2 ^ 53)%Z -> (0 <= k)%Z -> round64 (IZR n / IZR (2 ^ k)) = IZR n / IZR (2 ^ k).
Proof. intros. apply round64_exact. exists n, (- k)%Z. split; [assumption|]. rewrite pow2_minus by assumption. reflexivity. Qed.

Definition tenth : R := 7205759403792794 / 72057594037927936.
Lemma tenth_is : literal 0.1 = tenth.
Proof. unfold literal, tenth. round_tac (-4)%Z 7205759403792794%Z. Qed.

Definition f97 : R := 5460614548186726 / 562949953421312.
Lemma f97_is : literal 9.7 = f97.
Proof. unfold literal, f97. round_tac 3%Z 5460614548186726%Z. Qed.
Definition f1066 : R := 6001046503471186 / 562949953421312.
Lemma f1066_is : literal 10.66 = f1066.
Proof. unfold literal, f1066. round_tac 3%Z 6001046503471186%Z. Qed.

(** ** The interpolation *)
Definition curve64 (k0 f k2 s : R) : R := interp64 s 0 k0 [(1, k0); (5, f); (10, k2)].

(** What has to be known about the numbers of a table: they are doubles in
    decreasing order, and the computed stretches end where the next one starts,
    at 10 at least not below. *)
Record table (k0 f k2 a b : R) : Prop := {
  t_k0 : double k0; t_f : double f; t_k2 : double k2;
  t_order : 0 < k2 <= f /\ f <= k0 <= 16;
  t_a : div64 (sub64 f k0) 4 = - a; t_b : div64 (sub64 k2 f) 5 = - b;
  t_a0 : 0 <= a <= 2; t_b0 : 0 <= b <= 1;
  t_enda : add64 (mul64 (- a) 4) k0 = f;
  t_endb : add64 (mul64 (- b) 5) f = k2 }.

Lemma sub_int m n : (Z.abs (m - n) <= 2 ^ 53)%Z -> sub64 (IZR m) (IZR n) = IZR (m - n).
Proof. intros. unfold sub64. rewrite <- minus_IZR. apply round_int. assumption. Qed.

Lemma curve64_is k0 f k2 a b s : table k0 f k2 a b ->
  curve64 k0 f k2 s =
    if Rlt_dec s 1 then k0
    else if Rlt_dec s 5 then add64 (mul64 (- a) (sub64 s 1)) k0
    else if Rlt_dec s 10 then add64 (mul64 (- b) (sub64 s 5)) f
    else k2.
Proof.
  intros T. unfold curve64, interp64. cbn [interp64_from].
  rewrite (sub_int 5 1), (sub_int 10 5), (sub_int 1 0) by (cbn; lia). change (5 - 1)%Z with 4%Z. change (10 - 5)%Z with 5%Z.
  rewrite (t_a _ _ _ _ _ T), (t_b _ _ _ _ _ T).
  destruct (Rltb_spec s 0), (Rltb_spec s 1), (Rltb_spec s 5), (Rltb_spec s 10), (Rlt_dec s 1), (Rlt_dec s 5), (Rlt_dec s 10);
    try (exfalso; lra); [reflexivity| |reflexivity..].
  unfold sub64 at 1. rewrite Rminus_diag_eq, round64_0 by reflexivity. unfold div64, Rdiv. rewrite Rmult_0_l, round64_0.
  unfold mul64. rewrite Rmult_0_l, round64_0. unfold add64. rewrite Rplus_0_l. apply round64_exact, (t_k0 _ _ _ _ _ T).
Qed.

Lemma round_le x y : double y -> x <= y -> round64 x <= y.
Proof. intros D L. rewrite <- (round64_exact y D). apply round64_mono. assumption. Qed.
Lemma round_ge x y : double y -> y <= x -> y <= round64 x.
Proof. intros D L. rewrite <- (round64_exact y D). apply round64_mono. assumption. Qed.

(** One stretch: not increasing, from its first value to its last. *)
Lemma stretch_mono f c x0 s s' : 0 <= c -> s <= s' ->
  add64 (mul64 (- c) (sub64 s' x0)) f <= add64 (mul64 (- c) (sub64 s x0)) f.
Proof.
  intros C L. unfold add64. apply round64_mono, Rplus_le_compat_r. unfold mul64. apply round64_mono.
  assert (sub64 s x0 <= sub64 s' x0) by (unfold sub64; apply round64_mono; lra). nra.
Qed.
Lemma double_int n : (Z.abs n <= 2 ^ 53)%Z -> double (IZR n).
Proof. intros. exists n, 0%Z. split; [assumption|]. rewrite pow2_0. ring. Qed.
Lemma stretch_start f c x0 : double f -> add64 (mul64 (- c) (sub64 x0 x0)) f = f.
Proof.
  intros D. unfold sub64. rewrite Rminus_diag_eq, round64_0 by reflexivity. unfold mul64. rewrite Rmult_0_r, round64_0.
  unfold add64. rewrite Rplus_0_l. apply round64_exact. assumption.
Qed.

Lemma curve64_bounds k0 f k2 a b s : table k0 f k2 a b ->
  (s < 5 -> f <= curve64 k0 f k2 s <= k0) /\ (5 <= s -> k2 <= curve64 k0 f k2 s <= f).
Proof.
  intros T. rewrite (curve64_is _ _ _ _ _ _ T). destruct (t_order _ _ _ _ _ T) as [O1 O2].
  pose proof (t_a0 _ _ _ _ _ T). pose proof (t_b0 _ _ _ _ _ T).
  destruct (Rlt_dec s 1), (Rlt_dec s 5), (Rlt_dec s 10); split; intros; try (exfalso; lra); try lra.
  - split.
    + apply Rle_trans with (add64 (mul64 (- a) (sub64 5 1)) k0); [|apply stretch_mono; lra].
      rewrite (sub_int 5 1) by (cbn; lia). change (5 - 1)%Z with 4%Z. rewrite (t_enda _ _ _ _ _ T). lra.
    + apply Rle_trans with (add64 (mul64 (- a) (sub64 1 1)) k0); [apply stretch_mono; lra|].
      rewrite stretch_start by apply (t_k0 _ _ _ _ _ T). lra.
  - split.
    + apply Rle_trans with (add64 (mul64 (- b) (sub64 10 5)) f); [|apply stretch_mono; lra].
      rewrite (sub_int 10 5) by (cbn; lia). change (10 - 5)%Z with 5%Z. rewrite (t_endb _ _ _ _ _ T). lra.
    + apply Rle_trans with (add64 (mul64 (- b) (sub64 5 5)) f); [apply stretch_mono; lra|].
      rewrite stretch_start by apply (t_f _ _ _ _ _ T). lra.
Qed.

Lemma curve64_mono k0 f k2 a b s s' : table k0 f k2 a b -> s <= s' -> curve64 k0 f k2 s' <= curve64 k0 f k2 s.
Proof.
  intros T L. destruct (curve64_bounds _ _ _ _ _ s T) as [A B], (curve64_bounds _ _ _ _ _ s' T) as [A' B'].
  pose proof (t_a0 _ _ _ _ _ T). pose proof (t_b0 _ _ _ _ _ T).
  destruct (Rlt_dec s 5) as [S|S], (Rlt_dec s' 5) as [S'|S']; try (exfalso; lra).
  - specialize (A S). specialize (A' S'). rewrite !(curve64_is _ _ _ _ _ _ T) in *.
    destruct (Rlt_dec s 1), (Rlt_dec s' 1), (Rlt_dec s 5), (Rlt_dec s' 5); try (exfalso; lra); try lra.
    apply stretch_mono; lra.
  - specialize (A S). specialize (B' ltac:(lra)). lra.
  - specialize (B ltac:(lra)). specialize (B' ltac:(lra)). rewrite !(curve64_is _ _ _ _ _ _ T) in *.
    destruct (Rlt_dec s 1), (Rlt_dec s' 1), (Rlt_dec s 5), (Rlt_dec s' 5), (Rlt_dec s 10), (Rlt_dec s' 10); try (exfalso; lra); try lra.
    apply stretch_mono; lra.
Qed.

(** ** Rounding errors *)
Definition small : R := 2 / 1000000000000000.
Lemma round_near x B : - B <= x <= B -> x - B * / 9007199254740992 <= round64 x <= x + B * / 9007199254740992.
Proof.
  intros H. pose proof (round64_error x) as E. revert E. eval_pow2. intros E.
  assert (A : Rabs x <= B) by (apply Rabs_le; lra).
  apply Rabs_le_inv in E. lra.
Qed.
Lemma near17 x : -17 <= x <= 17 -> x - small <= round64 x <= x + small.
Proof. intros H. pose proof (round_near x 17 H). unfold small. lra. Qed.

(** A table of doubles close to a table of numbers. *)
Record close (k0 f k2 a b k1 : R) : Prop := {
  c_f : - small <= f - k1 <= small;
  c_a : - small <= a - (k0 - k1) / 4 <= small;
  c_b : - small <= b - (k1 - k2) / 5 <= small }.

Lemma stretch_near f c C x : 0 <= x <= 5 -> 0 <= C <= 2 -> 0 < f <= 16 -> C * x <= f -> - small <= c - C <= small ->
  f - C * x - 10 * small <= add64 (mul64 (- c) (round64 x)) f <= f - C * x + 10 * small.
Proof.
  intros X HC F L N. unfold add64, mul64. pose proof (near17 x ltac:(lra)) as R1. set (r := round64 x) in *.
  assert (P : - 8 * small <= - c * r + C * x <= 8 * small).
  { replace (- c * r + C * x) with (- ((c - C) * r) - C * (r - x)) by ring.
    assert (0 < small < 0.001) by (unfold small; lra).
    assert (- (5.1 * small) <= (c - C) * r <= 5.1 * small) by nra.
    assert (- (2 * small) <= C * (r - x) <= 2 * small) by nra. lra. }
  assert (0 < small < 0.001) by (unfold small; lra).
  assert (0 <= C * x <= 10) by nra.
  pose proof (near17 (- c * r) ltac:(lra)) as R2. set (q := round64 (- c * r)) in *.
  pose proof (near17 (q + f) ltac:(lra)) as R3. lra.
Qed.

Lemma curve64_near k0 f k2 a b k1 s : table k0 f k2 a b -> close k0 f k2 a b k1 -> k2 <= k1 <= k0 -> 1 <= k2 -> k0 <= k2 + 8 ->
  piecewise k0 k1 k2 s - 11 * small <= curve64 k0 f k2 s <= piecewise k0 k1 k2 s + 11 * small.
Proof.
  intros T C K K2 K8. rewrite (curve64_is _ _ _ _ _ _ T). destruct C as [Cf Ca Cb]. destruct (t_order _ _ _ _ _ T) as [O1 O2].
  pose proof (t_a0 _ _ _ _ _ T). pose proof (t_b0 _ _ _ _ _ T).
  assert (S : 0 < small < 0.0001) by (unfold small; lra).
  unfold piecewise. destruct (Rlt_dec s 1), (Rlt_dec s 5), (Rlt_dec s 10); try (exfalso; lra); try lra.
  - pose proof (stretch_near k0 a ((k0 - k1) / 4) (s - 1) ltac:(lra) ltac:(lra) ltac:(lra) ltac:(nra) Ca) as N.
    unfold sub64. nra.
  - pose proof (stretch_near f b ((k1 - k2) / 5) (s - 5) ltac:(lra) ltac:(lra) ltac:(lra) ltac:(nra) Cb) as N.
    unfold sub64. nra.
Qed.

(** ** The coefficient *)
Definition KD64 (k0 f k2 s : R) : R := mul64 (Rfloor (div64 (curve64 k0 f k2 s) tenth)) tenth.

Lemma KD64_mono k0 f k2 a b s s' : table k0 f k2 a b -> s <= s' -> KD64 k0 f k2 s' <= KD64 k0 f k2 s.
Proof.
  intros T L. unfold KD64, mul64. apply round64_mono. assert (0 < tenth) by (unfold tenth; lra).
  apply Rmult_le_compat_r; [lra|]. apply Rfloor_mono. unfold div64. apply round64_mono.
  unfold Rdiv. apply Rmult_le_compat_r; [left; apply Rinv_0_lt_compat; lra|]. apply (curve64_mono _ _ _ a b); assumption.
Qed.

Lemma KD64_near k0 f k2 a b k1 s : table k0 f k2 a b -> close k0 f k2 a b k1 -> k2 <= k1 <= k0 -> 1 <= k2 -> k0 <= k2 + 8 ->
  piecewise k0 k1 k2 s - 0.1 - 20 * small < KD64 k0 f k2 s <= piecewise k0 k1 k2 s + 20 * small.
Proof.
  intros T C K K2 K8. pose proof (curve64_near _ _ _ _ _ _ s T C K K2 K8) as N. destruct (curve64_bounds _ _ _ _ _ s T) as [B B'].
  destruct (t_order _ _ _ _ _ T) as [O1 O2].
  assert (V : 0 < curve64 k0 f k2 s <= 16) by (destruct (Rlt_dec s 5); [specialize (B r)|specialize (B' ltac:(lra))]; lra).
  unfold KD64. set (v := curve64 k0 f k2 s) in *. clear B B'.
  assert (E : v / tenth * tenth = v) by (field; unfold tenth; lra).
  assert (S : small = 2 / 1000000000000000) by reflexivity.
  assert (Q : 0 < v / tenth <= 160).
  { split; [apply Rdiv_lt_0_compat; unfold tenth; lra|]. apply Rmult_le_reg_r with tenth; [unfold tenth; lra|].
    rewrite E. unfold tenth. lra. }
  unfold div64. pose proof (round_near (v / tenth) 160 ltac:(lra)) as R1.
  set (q := round64 (v / tenth)) in *. pose proof (Rfloor_le q) as F1. pose proof (Rfloor_gt q) as F2.
  set (k := Rfloor q) in *. set (w := v / tenth) in *.
  unfold mul64. assert (KT : v - tenth - 2 * small < k * tenth <= v + 2 * small) by (unfold tenth in *; lra).
  pose proof (near17 (k * tenth)) as R2. unfold tenth in *. lra.
Qed.

Lemma KD64_multiple k0 f k2 a b K0 K2 s : table k0 f k2 a b ->
  div64 k0 tenth = IZR K0 -> div64 k2 tenth = IZR K2 ->
  exists k, (K2 <= k <= K0)%Z /\ KD64 k0 f k2 s = round64 (IZR k * tenth).
Proof.
  intros T E0 E2. destruct (curve64_bounds _ _ _ _ _ s T) as [B B']. destruct (t_order _ _ _ _ _ T) as [O1 O2].
  assert (V : k2 <= curve64 k0 f k2 s <= k0) by (destruct (Rlt_dec s 5); [specialize (B r)|specialize (B' ltac:(lra))]; lra).
  unfold KD64. set (v := curve64 k0 f k2 s) in *. exists (Int_part (div64 v tenth)). split; [|reflexivity].
  rewrite <- (Int_part_IZR K2), <- (Int_part_IZR K0), <- E0, <- E2.
  assert (0 < / tenth) by (apply Rinv_0_lt_compat; unfold tenth; lra).
  split; apply Int_part_mono; unfold div64; apply round64_mono; unfold Rdiv; apply Rmult_le_compat_r; lra.
Qed.

(** ** The tables of the code *)
Lemma accropode_table : table 15 f97 8 (2983634753132954 / 2251799813685248) (6124895493223872 / 18014398509481984).
Proof.
  assert (D : forall n k, (Z.abs n <= 2 ^ 53)%Z -> (0 <= k)%Z -> double (IZR n / IZR (2 ^ k))).
  { intros n k H K. exists n, (- k)%Z. split; [assumption|]. rewrite pow2_minus by assumption. reflexivity. }
  assert (S1 : sub64 f97 15 = - (2983634753132954 / 562949953421312)).
  { unfold sub64. replace (f97 - 15) with (- (2983634753132954 / 562949953421312)) by (unfold f97; lra).
    rewrite round64_neg. f_equal. apply (round_dyadic 2983634753132954 49); cbn; lia. }
  assert (S2 : sub64 8 f97 = - (957014920816230 / 562949953421312)).
  { unfold sub64. replace (8 - f97) with (- (957014920816230 / 562949953421312)) by (unfold f97; lra).
    rewrite round64_neg. f_equal. apply (round_dyadic 957014920816230 49); cbn; lia. }
  split.
  - apply double_int. cbn; lia.
  - apply (D 5460614548186726 49)%Z; cbn; lia.
  - apply double_int. cbn; lia.
  - unfold f97. lra.
  - rewrite S1. unfold div64. replace (- (2983634753132954 / 562949953421312) / 4) with (- (2983634753132954 / 2251799813685248)) by lra.
    rewrite round64_neg. f_equal. apply (round_dyadic 2983634753132954 51); cbn; lia.
  - rewrite S2. unfold div64. replace (- (957014920816230 / 562949953421312) / 5) with (- (957014920816230 / 562949953421312 / 5)) by lra.
    rewrite round64_neg. f_equal. round_tac (-2)%Z 6124895493223872%Z.
  - lra.
  - lra.
  - unfold mul64. replace (- (2983634753132954 / 2251799813685248) * 4) with (- (2983634753132954 / 562949953421312)) by lra.
    rewrite round64_neg. change 562949953421312 with (IZR (2 ^ 49)). rewrite (round_dyadic 2983634753132954 49) by (cbn; lia).
    change (IZR (2 ^ 49)) with 562949953421312.
    unfold add64. replace (- (2983634753132954 / 562949953421312) + 15) with f97 by (unfold f97; lra).
    apply round64_exact, (D 5460614548186726 49)%Z; cbn; lia.
  - unfold mul64. replace (- (6124895493223872 / 18014398509481984) * 5) with (- (6124895493223872 / 18014398509481984 * 5)) by lra.
    rewrite round64_neg. rewrite (round64_is 0 7656119366529840); [|split|apply Rabs_def1]; eval_pow2; try lra.
    unfold add64. replace (- (7656119366529840 * / 4503599627370496) + f97) with (IZR 8); [apply round_int; cbn; lia|unfold f97; lra].
Qed.

Lemma accropode2_table : table 16 f1066 9 (3006152751269806 / 2251799813685248) (5980780305148019 / 18014398509481984).
Proof.
  assert (D : forall n k, (Z.abs n <= 2 ^ 53)%Z -> (0 <= k)%Z -> double (IZR n / IZR (2 ^ k))).
  { intros n k H K. exists n, (- k)%Z. split; [assumption|]. rewrite pow2_minus by assumption. reflexivity. }
  assert (S1 : sub64 f1066 16 = - (3006152751269806 / 562949953421312)).
  { unfold sub64. replace (f1066 - 16) with (- (3006152751269806 / 562949953421312)) by (unfold f1066; lra).
    rewrite round64_neg. f_equal. apply (round_dyadic 3006152751269806 49); cbn; lia. }
  assert (S2 : sub64 9 f1066 = - (934496922679378 / 562949953421312)).
  { unfold sub64. replace (9 - f1066) with (- (934496922679378 / 562949953421312)) by (unfold f1066; lra).
    rewrite round64_neg. f_equal. apply (round_dyadic 934496922679378 49); cbn; lia. }
  split.
  - apply double_int. cbn; lia.
  - apply (D 6001046503471186 49)%Z; cbn; lia.
  - apply double_int. cbn; lia.
  - unfold f1066. lra.
  - rewrite S1. unfold div64. replace (- (3006152751269806 / 562949953421312) / 4) with (- (3006152751269806 / 2251799813685248)) by lra.
    rewrite round64_neg. f_equal. apply (round_dyadic 3006152751269806 51); cbn; lia.
  - rewrite S2. unfold div64. replace (- (934496922679378 / 562949953421312) / 5) with (- (934496922679378 / 562949953421312 / 5)) by lra.
    rewrite round64_neg. f_equal. round_tac (-2)%Z 5980780305148019%Z.
  - lra.
  - lra.
  - unfold mul64. replace (- (3006152751269806 / 2251799813685248) * 4) with (- (3006152751269806 / 562949953421312)) by lra.
    rewrite round64_neg. change 562949953421312 with (IZR (2 ^ 49)). rewrite (round_dyadic 3006152751269806 49) by (cbn; lia).
    change (IZR (2 ^ 49)) with 562949953421312.
    unfold add64. replace (- (3006152751269806 / 562949953421312) + 16) with f1066 by (unfold f1066; lra).
    apply round64_exact, (D 6001046503471186 49)%Z; cbn; lia.
  - unfold mul64. replace (- (5980780305148019 / 18014398509481984) * 5) with (- (5980780305148019 / 18014398509481984 * 5)) by lra.
    rewrite round64_neg. rewrite (round64_is 0 7475975381435024); [|split|apply Rabs_def1]; eval_pow2; try lra.
    unfold add64. replace (- (7475975381435024 * / 4503599627370496) + f1066) with (IZR 9); [apply round_int; cbn; lia|unfold f1066; lra].
Qed.

Lemma accropode_close : close 15 f97 8 (2983634753132954 / 2251799813685248) (6124895493223872 / 18014398509481984) 9.7.
Proof. split; unfold f97, small; lra. Qed.
Lemma accropode2_close : close 16 f1066 9 (3006152751269806 / 2251799813685248) (5980780305148019 / 18014398509481984) 10.66.
Proof. split; unfold f1066, small; lra. Qed.

Lemma tenths_150 : div64 15 tenth = 150. Proof. unfold div64, tenth. round_tac 7%Z 5277655813324800%Z. Qed.
Lemma tenths_80 : div64 8 tenth = 80. Proof. unfold div64, tenth. round_tac 6%Z 5629499534213120%Z. Qed.
Lemma tenths_160 : div64 16 tenth = 160. Proof. unfold div64, tenth. round_tac 7%Z 5629499534213120%Z. Qed.
Lemma tenths_90 : div64 9 tenth = 90. Proof. unfold div64, tenth. round_tac 6%Z 6333186975989760%Z. Qed.
Lemma back_150 : mul64 150 tenth = 15. Proof. unfold mul64, tenth. round_tac 3%Z 8444249301319680%Z. Qed.
Lemma back_80 : mul64 80 tenth = 8. Proof. unfold mul64, tenth. round_tac 3%Z 4503599627370496%Z. Qed.
Lemma back_160 : mul64 160 tenth = 16. Proof. unfold mul64, tenth. round_tac 4%Z 4503599627370496%Z. Qed.
Lemma back_90 : mul64 90 tenth = 9. Proof. unfold mul64, tenth. round_tac 3%Z 5066549580791808%Z. Qed.

(** ** C74 *)

(** Whatever the seabed slope, the function in double precision yields the
    rounded product of 0.1 and a whole number within the limits of the table,
    at most 0.1 below the design curve and not above it, up to rounding errors
    of 1e-13; it is the limit itself for flat and for steep seabeds; and it
    never increases with the slope. *)
Definition follows_curve64 (KD : R -> R) (k0 k1 k2 : R) : Prop :=
  forall s,
    (exists k : Z, k2 <= IZR k / 10 <= k0 /\ KD s = round64 (IZR k * round64 0.1))
    /\ piecewise k0 k1 k2 s - 0.1 - / 10000000000000 < KD s <= piecewise k0 k1 k2 s + / 10000000000000
    /\ (s <= 1 -> KD s = k0) /\ (10 <= s -> KD s = k2)
    /\ forall s', s <= s' -> KD s' <= KD s.

Lemma follows_table KD k0 f k2 a b k1 K0 K2 : table k0 f k2 a b -> close k0 f k2 a b k1 ->
  k2 <= k1 <= k0 -> 1 <= k2 -> k0 <= k2 + 8 ->
  div64 k0 tenth = IZR K0 -> div64 k2 tenth = IZR K2 -> mul64 (IZR K0) tenth = k0 -> mul64 (IZR K2) tenth = k2 ->
  k0 = IZR K0 / 10 -> k2 = IZR K2 / 10 ->
  (forall s, KD s = KD64 k0 f k2 s) -> follows_curve64 KD k0 k1 k2.
Proof.
  intros T C K K1 K8 E0 E2 M0 M2 D0 D2 EK s. rewrite EK. split; [|split; [|split; [|split]]].
  - destruct (KD64_multiple _ _ _ _ _ _ _ s T E0 E2) as (k & B & E). exists k. change (round64 0.1) with (literal 0.1).
    rewrite tenth_is. split; [|assumption]. destruct B as [B1 B2]. apply IZR_le in B1, B2. lra.
  - pose proof (KD64_near _ _ _ _ _ _ s T C K K1 K8). unfold small in *. lra.
  - intros L. unfold KD64. rewrite (curve64_is _ _ _ _ _ _ T).
    destruct (Rlt_dec s 1).
    + rewrite E0. unfold Rfloor. rewrite Int_part_IZR. assumption.
    + destruct (Rlt_dec s 5); [|exfalso; lra]. replace s with 1 by lra. rewrite stretch_start by apply (t_k0 _ _ _ _ _ T).
      rewrite E0. unfold Rfloor. rewrite Int_part_IZR. assumption.
  - intros L. unfold KD64. rewrite (curve64_is _ _ _ _ _ _ T).
    destruct (Rlt_dec s 1), (Rlt_dec s 5), (Rlt_dec s 10); try (exfalso; lra).
    rewrite E2. unfold Rfloor. rewrite Int_part_IZR. assumption.
  - intros s' L. rewrite EK. apply (KD64_mono _ _ _ a b); assumption.
Qed.

Theorem C74_accropode : follows_curve64 accropode_KD64 15 9.7 8.
Proof.
  apply (follows_table _ _ _ _ _ _ _ 150 80 accropode_table accropode_close); try lra;
    try apply tenths_150; try apply tenths_80; try apply back_150; try apply back_80.
  intros s. unfold accropode_KD64. rewrite tenth_is, f97_is. reflexivity.
Qed.
Theorem C74_accropode2 : follows_curve64 accropode2_KD64 16 10.66 9.
Proof.
  apply (follows_table _ _ _ _ _ _ _ 160 90 accropode2_table accropode2_close); try lra;
    try apply tenths_160; try apply tenths_90; try apply back_160; try apply back_90.
  intros s. unfold accropode2_KD64. rewrite tenth_is, f1066_is. reflexivity.
Qed.
Theorem C74_core_loc : follows_curve64 core_loc_KD64 16 10.66 9.
Proof. exact C74_accropode2. Qed.

(** The result differs from the one of exact arithmetic by less than 0.1, up to
    rounding errors. *)
Theorem C74_near_the_exact_function : forall s,
  (exists k, value (accropode_KD_breaking (Fin s)) = Ok (Fin k) /\ Rabs (accropode_KD64 s - k) < 0.1 + / 10000000000000)
  /\ (exists k, value (accropode2_KD_breaking (Fin s)) = Ok (Fin k) /\ Rabs (accropode2_KD64 s - k) < 0.1 + / 10000000000000)
  /\ (exists k, value (core_loc_KD_breaking (Fin s)) = Ok (Fin k) /\ Rabs (core_loc_KD64 s - k) < 0.1 + / 10000000000000).
Proof.
  intros s. destruct C40_KD_follows_the_design_curve as (A & B & C).
  split; [|split].
  - destruct (A s) as (k & V & K), (C74_accropode s) as (_ & N & _). exists (IZR k * 0.1). split; [assumption|]. apply Rabs_def1; lra.
  - destruct (B s) as (k & V & K), (C74_accropode2 s) as (_ & N & _). exists (IZR k * 0.1). split; [assumption|]. apply Rabs_def1; lra.
  - destruct (C s) as (k & V & K), (C74_core_loc s) as (_ & N & _). exists (IZR k * 0.1). split; [assumption|]. apply Rabs_def1; lra.
Qed.

(** It does differ by 0.1: at a seabed slope of 5 %, where the design table of
    the Accropode has a coefficient of 9.7, the function yields 9.6, because
    9.7 / 0.1 is a little less than 97 in double precision. *)
Theorem C74_accropode_5_refuted :
  value (accropode_KD_breaking (Fin 5)) = Ok (Fin 9.7)
  /\ accropode_KD64 5 = round64 (96 * round64 0.1) /\ accropode_KD64 5 < 9.6001.
Proof.
  split.
  - destruct C40_KD_follows_the_design_curve as (A & _). destruct (A 5) as (k & V & K). rewrite V. do 2 f_equal.
    unfold piecewise in K. destruct (Rlt_dec 5 1), (Rlt_dec 5 5), (Rlt_dec 5 10); try lra.
    assert (k = 97)%Z; [|subst; lra]. apply Z.le_antisymm; apply Z.lt_succ_r, lt_IZR; rewrite succ_IZR; lra.
  - assert (E : accropode_KD64 5 = mul64 96 tenth).
    { unfold accropode_KD64. rewrite tenth_is, f97_is. change (interp64 5 0 15 [(1, 15); (5, f97); (10, 8)]) with (curve64 15 f97 8 5).
      rewrite (curve64_is _ _ _ _ _ _ accropode_table). destruct (Rlt_dec 5 1), (Rlt_dec 5 5), (Rlt_dec 5 10); try (exfalso; lra).
      rewrite stretch_start by apply (t_f _ _ _ _ _ accropode_table).
      replace (Rfloor (div64 f97 tenth)) with 96; [reflexivity|]. unfold Rfloor.
      rewrite (Int_part_spec _ 96); [reflexivity|]. unfold div64, f97, tenth.
      rewrite (round64_is 6 6825768185233407); [|split|apply Rabs_def1]; eval_pow2; try lra. }
    rewrite E. change (round64 0.1) with (literal 0.1). rewrite tenth_is. split; [reflexivity|].
    unfold mul64. pose proof (near17 (96 * tenth)). unfold tenth, small in *. lra.
Qed.

Example C74_example : accropode2_KD64 0.5 = 16 /\ accropode2_KD64 12 = 9.
Proof. destruct (C74_accropode2 0.5) as (_ & _ & A & _), (C74_accropode2 12) as (_ & _ & _ & B & _). split; [apply A|apply B]; lra. Qed.

(** The rounding used is the one of IEEE 754 up to the range of the exponent:
    the result is a number with 53 bits, and none is nearer. *)
Theorem C74_rounding : forall x, double (round64 x) /\ forall z, double z -> Rabs (x - round64 x) <= Rabs (x - z).
Proof. intros x. split; [apply round64_double|]. intros z D. apply round64_nearest. assumption. Qed.
