(** Tactics and lemmas about real numbers used by the proofs. *)
From Coq Require Import Reals ZArith Lra Lia Bool QArith.
From Verif.Lib Require Import Num.
Open Scope R_scope.

(** Unfold decimal constants so that [field] understands them. *)
Ltac dec := unfold Q2R in *; cbn [Qnum Qden] in *.
Ltac rfield := unfold Q2R; cbn [Qnum Qden]; field.

(** Solve goals [0 < e], [0 <= e], [e <> 0] by the shape of [e]. *)
Ltac rpos :=
  first [ assumption | rpos_struct | lra ]
with rpos_struct :=
  match goal with
  | |- 0 < ?a * ?b => apply Rmult_lt_0_compat; rpos
  | |- 0 < ?a / ?b => apply Rdiv_lt_0_compat; rpos
  | |- 0 < / ?a => apply Rinv_0_lt_compat; rpos
  | |- 0 < ?a + ?b =>
      first [ apply Rplus_lt_0_compat; [rpos | rpos]
            | apply Rplus_lt_le_0_compat; [rpos | rpos]
            | apply Rplus_le_lt_0_compat; [rpos | rpos] ]
  | |- 0 < exp _ => apply exp_pos
  | |- 0 < Rpower _ _ => unfold Rpower; apply exp_pos
  | |- 0 < sqrt _ => apply sqrt_lt_R0; rpos
  | |- 0 < _ ^ _ => apply pow_lt; rpos
  | |- 0 < PI => exact PI_RGT_0
  | |- 0 < Rmin _ _ => apply Rmin_glb_lt; rpos
  | |- 0 < Rmax _ _ => first [ eapply Rlt_le_trans; [ | apply Rmax_l ]; rpos
                             | eapply Rlt_le_trans; [ | apply Rmax_r ]; rpos ]
  | |- 0 < cosh _ => unfold cosh; rpos
  | |- 0 <= ?a * ?b => apply Rmult_le_pos; rpos
  | |- 0 <= ?a + ?b => apply Rplus_le_le_0_compat; rpos
  | |- 0 <= ?a / ?b => apply Rmult_le_pos; [ rpos | apply Rlt_le; apply Rinv_0_lt_compat; rpos ]
  | |- 0 <= sqrt _ => apply sqrt_pos
  | |- 0 <= Rabs _ => apply Rabs_pos
  | |- 0 <= Rsqr _ => apply Rle_0_sqr
  | |- 0 <= ?a ^ 2 => apply pow2_ge_0
  | |- 0 <= _ => apply Rlt_le; rpos
  | |- ?a <> 0 => apply Rgt_not_eq; red; rpos
  | |- _ > 0 => red; rpos
  end.

(** ** Powers *)
Lemma Rpower_pos x y : 0 < Rpower x y.
Proof. apply exp_pos. Qed.

Lemma Rpower_div x y z : 0 < x -> 0 < y -> Rpower (x / y) z = Rpower x z / Rpower y z.
Proof.
  intros Hx Hy. unfold Rpower, Rdiv.
  rewrite ln_mult by rpos. rewrite ln_Rinv by assumption.
  rewrite <- exp_Ropp, <- exp_plus. f_equal. ring.
Qed.

Lemma Rpower_mul x y z : 0 < x -> 0 < y -> Rpower (x * y) z = Rpower x z * Rpower y z.
Proof. intros. symmetry. apply Rpower_mult_distr; assumption. Qed.

Lemma Rpower_inv_base x z : 0 < x -> Rpower (/ x) z = Rpower x (- z).
Proof. intros. unfold Rpower. rewrite ln_Rinv by assumption. f_equal. ring. Qed.

Lemma Rpower_eq x y z t : x = y -> z = t -> Rpower x z = Rpower y t.
Proof. congruence. Qed.

(** [(x^y)^z = x^t] whenever [y*z = t]. *)
Lemma Rpower_pow_eq x y z t : y * z = t -> Rpower (Rpower x y) z = Rpower x t.
Proof. intros <-. apply Rpower_mult. Qed.

Lemma Rpower_cancel x y z : 0 < x -> y * z = 1 -> Rpower (Rpower x y) z = x.
Proof. intros. rewrite (Rpower_pow_eq x y z 1) by assumption. apply Rpower_1; assumption. Qed.

Lemma Rpower_2 x : 0 < x -> Rpower x 2 = x ^ 2.
Proof. intros. change 2 with (INR 2). apply Rpower_pow; assumption. Qed.
Lemma Rpower_3 x : 0 < x -> Rpower x 3 = x ^ 3.
Proof. intros. replace 3 with (INR 3) by (simpl; lra). apply Rpower_pow; assumption. Qed.

Lemma sqrt_Rpower x : 0 < x -> sqrt x = Rpower x (/ 2).
Proof. intros. symmetry. apply Rpower_sqrt; assumption. Qed.

Lemma Rpower_lt_base x y z : 0 < z -> 0 < x -> x < y -> Rpower x z < Rpower y z.
Proof.
  intros. unfold Rpower. apply exp_increasing. apply Rmult_lt_compat_l; [assumption|].
  apply ln_increasing; assumption.
Qed.
Lemma Rpower_le_base x y z : 0 <= z -> 0 < x -> x <= y -> Rpower x z <= Rpower y z.
Proof. intros. apply Rle_Rpower_l; lra. Qed.
Lemma Rpower_lt_base_neg x y z : z < 0 -> 0 < x -> x < y -> Rpower y z < Rpower x z.
Proof.
  intros. unfold Rpower. apply exp_increasing.
  assert (ln x < ln y) by (apply ln_increasing; assumption). nra.
Qed.
Lemma Rpower_inj_base x y z : z <> 0 -> 0 < x -> 0 < y -> Rpower x z = Rpower y z -> x = y.
Proof.
  intros Hz Hx Hy E. unfold Rpower in E. apply exp_inv in E.
  apply ln_inv; [assumption..|]. nra.
Qed.
Lemma Rpower_1_base z : Rpower 1 z = 1.
Proof. unfold Rpower. rewrite ln_1, Rmult_0_r. apply exp_0. Qed.

Lemma ln_inj_eq x y : 0 < x -> 0 < y -> ln x = ln y -> x = y.
Proof. intros. apply ln_inv; assumption. Qed.

Lemma ln_Rpower x y : ln (Rpower x y) = y * ln x.
Proof. unfold Rpower. apply ln_exp. Qed.

Lemma ln_div x y : 0 < x -> 0 < y -> ln (x / y) = ln x - ln y.
Proof. intros. unfold Rdiv. rewrite ln_mult by rpos. rewrite ln_Rinv by assumption. ring. Qed.

Lemma ln_sqrt x : 0 < x -> ln (sqrt x) = / 2 * ln x.
Proof. intros. rewrite sqrt_Rpower by assumption. apply ln_Rpower. Qed.

Lemma ln_pow x n : 0 < x -> ln (x ^ n) = INR n * ln x.
Proof. intros. rewrite <- Rpower_pow by assumption. apply ln_Rpower. Qed.

(** Prove an equation between products of positive powers by taking
    logarithms; the leftover goal is linear in the logarithms. *)
Ltac ln_push :=
  repeat first
    [ rewrite ln_mult by rpos
    | rewrite ln_div by rpos
    | rewrite ln_Rpower
    | rewrite ln_sqrt by rpos
    | rewrite ln_Rinv by rpos
    | rewrite ln_pow by rpos
    | rewrite ln_exp ].
Ltac ln_eq := apply ln_inj_eq; [ rpos | rpos | ]; ln_push; cbn [INR].

(** ** Boolean comparisons *)
Lemma Rltb_true a b : a < b -> Rltb a b = true.
Proof. unfold Rltb. destruct (Rlt_dec a b); tauto. Qed.
Lemma Rltb_false a b : b <= a -> Rltb a b = false.
Proof. unfold Rltb. destruct (Rlt_dec a b); lra. Qed.
Lemma Rleb_true a b : a <= b -> Rleb a b = true.
Proof. unfold Rleb. destruct (Rle_dec a b); tauto. Qed.
Lemma Rleb_false a b : b < a -> Rleb a b = false.
Proof. unfold Rleb. destruct (Rle_dec a b); lra. Qed.
Lemma Reqb_true a b : a = b -> Reqb a b = true.
Proof. unfold Reqb. destruct (Req_EM_T a b); tauto. Qed.
Lemma Reqb_false a b : a <> b -> Reqb a b = false.
Proof. unfold Reqb. destruct (Req_EM_T a b); tauto. Qed.

Lemma Rltb_spec a b : reflect (a < b) (Rltb a b).
Proof. unfold Rltb. destruct (Rlt_dec a b); constructor; assumption. Qed.
Lemma Rleb_spec a b : reflect (a <= b) (Rleb a b).
Proof. unfold Rleb. destruct (Rle_dec a b); constructor; assumption. Qed.
Lemma Reqb_spec a b : reflect (a = b) (Reqb a b).
Proof. unfold Reqb. destruct (Req_EM_T a b); constructor; assumption. Qed.

Lemma Rltb_iff a b : Rltb a b = true <-> a < b.
Proof. destruct (Rltb_spec a b); split; intros; try congruence; tauto. Qed.
Lemma Reqb_iff a b : Reqb a b = true <-> a = b.
Proof. destruct (Reqb_spec a b); split; intros; try congruence; tauto. Qed.
Lemma Rltb_or_eqb a b : (Rltb a b || Reqb a b)%bool = Rleb a b.
Proof.
  destruct (Rltb_spec a b), (Reqb_spec a b), (Rleb_spec a b); simpl; try reflexivity; lra.
Qed.

(** ** Min / max *)
Lemma Rmin_if a b : (if Rltb b a then b else a) = Rmin a b.
Proof. unfold Rmin. destruct (Rltb_spec b a), (Rle_dec a b); lra. Qed.
Lemma Rmax_if a b : (if Rltb a b then b else a) = Rmax a b.
Proof. unfold Rmax. destruct (Rltb_spec a b), (Rle_dec a b); lra. Qed.

Lemma Rmin_mult_l c a b : 0 <= c -> c * Rmin a b = Rmin (c * a) (c * b).
Proof.
  intros. unfold Rmin. destruct (Rle_dec a b), (Rle_dec (c * a) (c * b)); try reflexivity; nra.
Qed.

(** ** Floor *)
Lemma Int_part_spec a z : IZR z <= a < IZR z + 1 -> Int_part a = z.
Proof.
  intros [H1 H2]. unfold Int_part.
  rewrite <- (tech_up a (z + 1)); [ lia | |]; rewrite plus_IZR; lra.
Qed.
Lemma Rfloor_le a : Rfloor a <= a.
Proof. unfold Rfloor. destruct (base_Int_part a). assumption. Qed.
Lemma Rfloor_gt a : a - 1 < Rfloor a.
Proof. unfold Rfloor. destruct (base_Int_part a). lra. Qed.
Lemma Int_part_mono a b : a <= b -> (Int_part a <= Int_part b)%Z.
Proof.
  intros. destruct (base_Int_part a), (base_Int_part b).
  assert (IZR (Int_part a) < IZR (Int_part b + 1)) by (rewrite plus_IZR; lra).
  apply lt_IZR in H4. lia.
Qed.
Lemma Rfloor_mono a b : a <= b -> Rfloor a <= Rfloor b.
Proof. intros. apply IZR_le, Int_part_mono. assumption. Qed.
Lemma Int_part_IZR z : Int_part (IZR z) = z.
Proof. apply Int_part_spec. lra. Qed.
Lemma is_int_IZR z : is_int (IZR z) = true.
Proof. unfold is_int. rewrite Int_part_IZR. apply Reqb_true. reflexivity. Qed.

Ltac rfld := unfold Q2R; cbn [Qnum Qden]; field; repeat split; rpos.

(** Split on every boolean comparison of the goal, discarding contradictory cases. *)
Ltac cases :=
  repeat (match goal with
  | |- context [Rleb ?a ?b] => destruct (Rleb_spec a b)
  | |- context [Rltb ?a ?b] => destruct (Rltb_spec a b)
  end; cbn [andb orb negb]; try (exfalso; lra)).

