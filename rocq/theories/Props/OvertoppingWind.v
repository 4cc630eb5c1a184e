(** Property C28: the influence of wind on overtopping, Van Gent et al. (2025). *)
From Coq Require Import Reals Lra Lia List Bool String.
From Verif.Lib Require Import Num Monad RTac NTac Contraction.
From Verif.Spec Require Import Waves Ranges Overtopping.
From Verif.Model Require Import CoreUtility CorePhysics Numpy VanGent2025.
From Verif.Proofs Require Import Core CheckTac Warns Overtopping VanGent25 Wind.
From Verif.Props Require Import OvertoppingVanGent25.
Import ListNotations.
Open Scope R_scope.

Notation Rvd := calculate_dimensionless_crest_freeboard.

Lemma gamma_w_fin x Ac H Q : 0 < H -> 0 < Q ->
  calculate_influence_wind_gamma_w (Fin x * Fin H) (Fin Ac) (Fin H) (Fin Q) = Fin (vg25_gamma_w x (Ac / H) Q).
Proof.
  intros. unfold calculate_influence_wind_gamma_w, vg25_gamma_w. cbv zeta. nfin. f_equal.
  replace ((x * H - Ac) / H) with (x - Ac / H) by (field; lra). reflexivity.
Qed.

Lemma gamma_w_fin' Rc Ac H Q : 0 < H -> 0 < Q ->
  calculate_influence_wind_gamma_w (Fin Rc) (Fin Ac) (Fin H) (Fin Q) = Fin (vg25_gamma_w (Rc / H) (Ac / H) Q).
Proof.
  intros. rewrite <- gamma_w_fin by assumption. nfin. do 2 f_equal. field. lra.
Qed.

(** The loop returns the iterate at which the step is first within the
    tolerance, or the last one it may compute. *)
Lemma loop_result step f x0 tol :
  (forall k, step (Fin (iter f k x0)) = Fin (iter f (S k) x0)) ->
  forall n j d, exists k, (j <= k <= j + n)%nat
    /\ wind_iterations step (Fin tol) n (Fin (iter f j x0)) d = Fin (iter f k x0)
    /\ (k = j + n \/ (k = j /\ ngt d (Fin tol) = false)
        \/ (exists i, k = S i /\ j <= i /\ (Rabs (iter f k x0 - iter f i x0) <= tol)%R))%nat.
Proof.
  intros Hs. induction n; intros j d; cbn [wind_iterations].
  - exists j. split; [lia|]. split; [destruct (ngt d (Fin tol)); reflexivity|]. left. lia.
  - destruct (ngt d (Fin tol)) eqn:E.
    + rewrite Hs. destruct (IHn (S j) (nabs (Fin (iter f (S j) x0) - Fin (iter f j x0)))%num) as (k & Hk & V & C).
      exists k. split; [lia|]. split; [exact V|]. destruct C as [C|[[C D]|(i & C & Hi & D)]].
      * left. lia.
      * right. right. exists j. split; [assumption|]. split; [lia|]. subst k. revert D. nfin. intros D.
        destruct (Rltb_spec tol (Rabs (iter f (S j) x0 - iter f j x0))); [discriminate|lra].
      * right. right. exists i. split; [assumption|]. split; [lia|assumption].
    + exists j. split; [lia|]. split; [reflexivity|]. right. left. auto.
Qed.

Section Wind.
Variables (H T cot gf gb gv gbe Hsw q Ac : R) (beta B db Dn : num) (design : bool).
Hypotheses (HH : 0 < H) (HT : 0 < T) (Hcot : 0 < cot) (Hgf : 0 < gf) (Hgb : 0 < gb) (Hgv : 0 < gv) (Hgbe : 0 < gbe) (Hq : 0 < q).
Let ksi := iribarren g0 H T (1 / cot).
Let gam := gf * gb * gv * gbe.
Let sw := 0.4 * Hsw / H.
Let Q := undesigned design (q / q_unit g0 H).
Let x0 := solve_regime (6.8 / cot) (gam * ksi / 5) Q + sw.
Let xmax := solve_regime (0.8 / cot) (gam * Rpower ksi 0.24 / 2.5) (q / q_unit g0 H) + sw.
Let c := 0.075 * Rpower Q (- (0.3)).
Let f := windf x0 (gam * ksi / 5) c (Ac / H).
Let step := fun Rc_diml =>
  let gamma_w := calculate_influence_wind_gamma_w (Rc_diml * Fin H)%num (Fin Ac) (Fin H) (Fin Q) in
  let q_diml_iter := (Fin Q / gamma_w)%num in
  Rc_diml_equation (Fin H) (Fin Hsw) q_diml_iter (Fin cot) (Fin ksi) (Fin gf) (Fin gb) (Fin gv) (Fin gbe).

Lemma Q_pos : 0 < Q.
Proof. apply undesigned_pos. apply Rdiv_lt_0_compat; [assumption|apply q_unit_pos; auto]. Qed.

Lemma c_pos : 0 < c.
Proof. unfold c. pose proof (Rpower_pos Q (- (0.3))). lra. Qed.

Lemma gamma_w_c x : vg25_gamma_w x (Ac / H) Q = 1 + c * (x - Ac / H).
Proof. unfold vg25_gamma_w, c. ring. Qed.

Lemma step_fin x : 0 < vg25_gamma_w x (Ac / H) Q -> step (Fin x) = Fin (f x).
Proof.
  intros Hw. pose proof Q_pos. unfold step. cbv zeta. rewrite gamma_w_fin by assumption.
  assert (0 < Q / vg25_gamma_w x (Ac / H) Q) by (apply Rdiv_lt_0_compat; assumption).
  rewrite ndiv_fin by lra. unfold ksi. rewrite Rc_general_fin by assumption. f_equal. fold ksi gam sw.
  unfold f, windf, x0, solve_regime. rewrite <- gamma_w_c. rewrite (ln_div Q) by assumption. ring.
Qed.

Lemma Rvd_value n tol :
  value (Rvd (Fin H) (Fin Hsw) (Fin T) (Fin q) (Fin Ac) (Fin cot) beta B db Dn (Fin gf) (Fin gb) (Fin gv) (Fin gbe) (Fin g0) design true n tol)
  = Ok (let r := wind_iterations step tol n (Fin x0) PInf in
        (nmin r (Fin xmax), neqb (nmin (nmin r (Fin xmax)) (Fin xmax)) (Fin xmax))).
Proof.
  pose proof Q_pos as HQ.
  unfold Rvd, factor_beta, factor_b, factor_f. cbn [isnan].
  cbv beta iota zeta. rewrite bind_ret_l. rewrite iribarren_fin by (try assumption; lra).
  pose proof (q_unit_pos g0 H g0_pos HH). rewrite q_unit_fin by auto.
  assert (HQ' : 0 < q / q_unit g0 H) by (apply Rdiv_lt_0_compat; assumption).
  rewrite (ndiv_fin q) by lra.
  assert (E : (if design then npow (Fin (q / q_unit g0 H)) (#1 / #0.857) else Fin (q / q_unit g0 H))%num = Fin Q).
  { unfold Q, undesigned. destruct design; [|reflexivity]. nfin. reflexivity. }
  rewrite !E. rewrite Rc_maximum_fin by assumption. rewrite (Rc_general_fin H T cot gf gb gv gbe HH Hcot Q Hsw HQ).
  fold ksi gam sw xmax x0. mval. rewrite checks_v. mval. reflexivity.
Qed.

Lemma orbit_fin k : Ac / H <= x0 -> step (Fin (iter f k x0)) = Fin (iter f (S k) x0).
Proof.
  intros Ha. rewrite step_fin; [reflexivity|]. rewrite gamma_w_c. pose proof c_pos.
  assert (HB : 0 < gam * ksi / 5).
  { assert (0 < ksi) by (apply ksi_pos; assumption). assert (0 < gam) by (apply gam_pos; assumption). rpos. }
  pose proof (wind_arg x0 c (Ac / H) c_pos Ha (iter f k x0) (iter_above _ _ _ _ HB c_pos Ha k)). lra.
Qed.
End Wind.

(** ** The discharge *)

(** Wind multiplies the dimensionless discharge by a factor that exceeds 1
    exactly for a crest above the armour; the flag is not affected. *)
Theorem C28_discharge : forall g H T cot gf gb gv gbe Hsw Rc Ac (beta B db Dn : num),
  0 < g -> 0 < H -> 0 < T -> 0 < cot -> 0 < gf -> 0 < gb -> 0 < gv -> 0 < gbe ->
  let ksi := iribarren g0 H T (1 / cot) in
  let gam := gf * gb * gv * gbe in
  let D := vg25_discharge cot ksi gam ((Rc - 0.4 * Hsw) / H) in
  let w := vg25_gamma_w (Rc / H) (Ac / H) D in
  let call := qv (Fin H) (Fin Hsw) (Fin T) (Fin Rc) (Fin Ac) (Fin cot) beta B db Dn (Fin gf) (Fin gb) (Fin gv) (Fin gbe) (Fin g) in
  exists q reached,
    value (call false false) = Ok (Fin q, reached) /\
    value (call false true) = Ok (Fin (w * q), reached) /\
    (0 < w -> value (call true true) = Ok (Fin (Rpower (w * D) 0.857 * q_unit g H), reached)) /\
    (1 < w <-> Ac < Rc) /\ (w = 1 <-> Ac = Rc).
Proof.
  intros g H T cot gf gb gv gbe Hsw Rc Ac beta B db Dn Hg HH HT Hc Hgf Hgb Hgv Hgbe ksi gam D w call.
  assert (HD : 0 < D) by (apply discharge_pos; assumption).
  do 2 eexists. split; [apply qv_value; assumption|]. fold ksi gam D. cbn [designed].
  assert (E : forall d, call d true =
    check_validity_range (Fin H) NaN (Fin T) beta NaN (Fin cot) Dn (Fin Rc) (Fin Ac) NaN B db ;;
    ret ((if d then npow (Fin (D * w)) #0.857 else Fin (D * w)) * Fin (q_unit g H), Reqb D (vg25_maximum cot ksi gam ((Rc - 0.4 * Hsw) / H)))%num).
  { intros d. unfold call, qv, calculate_dimensionless_overtopping_discharge_q, factor_beta, factor_b, factor_f. cbn [isnan].
    cbv beta iota zeta. rewrite bind_ret_l. rewrite iribarren_fin by (try assumption; lra).
    rewrite q_general_fin, q_maximum_fin by assumption. fold ksi gam. rewrite bind_assoc.
    f_equal. rewrite nmin_fin. fold (vg25_discharge cot ksi gam ((Rc - 0.4 * Hsw) / H)). fold D.
    rewrite gamma_w_fin' by assumption. fold w. rewrite bind_ret_l. rewrite q_unit_fin by assumption. rewrite nmul_fin.
    reflexivity. }
  split; [|split].
  - rewrite E. mval. rewrite checks_v. mval. nfin. do 3 f_equal. ring.
  - intros Hw. rewrite E. mval. rewrite checks_v. mval.
    assert (0 < D * w) by (apply Rmult_lt_0_compat; assumption). nfin. rewrite (Rmult_comm w D). reflexivity.
  - unfold w, vg25_gamma_w. pose proof (Rpower_pos D (- (0.3))) as P. set (p := Rpower D (- (0.3))) in *.
    assert (Ed : Rc / H - Ac / H = (Rc - Ac) / H) by (field; lra). rewrite Ed.
    assert (Hd : forall s, 0 < s / H <-> 0 < s).
    { intros s. split; intros L; [|apply Rdiv_lt_0_compat; assumption]. replace s with (s / H * H) by (field; lra). apply Rmult_lt_0_compat; assumption. }
    assert (K : forall t, 0 < 0.075 * t * p <-> 0 < t).
    { intros t. split; intros L; [|apply Rmult_lt_0_compat; lra].
      destruct (Rlt_le_dec 0 t) as [|N]; [assumption|]. assert (0 <= 0.075 * (- t) * p) by (apply Rmult_le_pos; lra). lra. }
    split; split; intros L.
    + assert (L' : 0 < (Rc - Ac) / H) by (apply (proj1 (K _)); lra). apply (proj1 (Hd _)) in L'. lra.
    + assert (L' : 0 < (Rc - Ac) / H) by (apply (proj2 (Hd _)); lra). apply (proj2 (K _)) in L'. lra.
    + assert (Z : 0.075 * ((Rc - Ac) / H) * p = 0) by lra. apply Rmult_integral in Z as [Z|Z]; [|lra].
      apply Rmult_integral in Z as [Z|Z]; [lra|]. assert (Rc - Ac = (Rc - Ac) / H * H) by (field; lra). rewrite Z in H0. lra.
    + subst Rc. unfold Rdiv. ring.
Qed.

(** A crest far enough below the armour even makes the discharge negative. *)
Theorem C28_negative_discharge_refuted : exists H T cot Ac q reached,
  0 < H /\ 0 < T /\ 0 < cot /\ 0 < Ac /\ q < 0 /\
  value (qv (Fin H) #0 (Fin T) #0 (Fin Ac) (Fin cot) NaN #0 #0 NaN #1 #1 #1 #1 (Fin g0) false true) = Ok (Fin q, reached).
Proof.
  set (ksi := iribarren g0 1 1 (1 / 1)).
  assert (HD : vg25_discharge 1 ksi (1 * 1 * 1 * 1) ((0 - 0.4 * 0) / 1) = 0.8).
  { unfold vg25_discharge, vg25_maximum, vg25_general. replace ((0 - 0.4 * 0) / 1) with 0 by lra. rewrite !Rmult_0_r.
    unfold Rdiv at 2 4. rewrite !Rmult_0_l, !Ropp_0, !exp_0. rewrite Rmin_right; lra. }
  destruct (C28_discharge g0 1 1 1 1 1 1 1 0 0 20 NaN #0 #0 NaN g0_pos) as (q & r & E1 & E2 & _); try lra.
  cbv zeta in E1, E2. fold ksi in E2. rewrite HD in E2.
  rewrite qv_value in E1 by (try exact g0_pos; lra). fold ksi in E1. rewrite HD in E1.
  injection E1 as Eq _. cbn [designed] in Eq.
  pose proof (q_unit_pos g0 1 g0_pos Rlt_0_1) as HU.
  exists 1, 1, 1, 20. do 2 eexists. repeat split; try lra; [|exact E2].
  assert (Hw : vg25_gamma_w (0 / 1) (20 / 1) 0.8 < 0).
  { unfold vg25_gamma_w. assert (1 < Rpower 0.8 (- (0.3))); [|lra].
    apply ln_lt_pos; [lra|apply Rpower_pos|]. rewrite ln_1, ln_Rpower.
    assert (ln 0.8 < 0) by (rewrite <- ln_1; apply ln_increasing; lra). lra. }
  rewrite <- Eq. assert (0 < 0.8 * q_unit g0 1) by lra.
  assert (0 < - vg25_gamma_w (0 / 1) (20 / 1) 0.8 * (0.8 * q_unit g0 1)) by (apply Rmult_lt_0_compat; lra). lra.
Qed.

(** ** The freeboard *)

(** The freeboard with wind, whatever the cap on the iterations and the
    tolerance, for a discharge small enough that the freeboard [x0] without wind
    reaches the armour crest.  Before comparison with the maximum it is at least
    [x0] and at most any freeboard that balances the discharge with wind; and if
    the iteration contracts, such a freeboard exists, is unique, and is missed by
    no more than the tolerance or the cap allow. *)
Theorem C28_freeboard : forall H T cot gf gb gv gbe Hsw q Ac (beta B db Dn : num) (design : bool) (n : nat) (tol x0 xmax : R),
  0 < H -> 0 < T -> 0 < cot -> 0 < gf -> 0 < gb -> 0 < gv -> 0 < gbe -> 0 < q ->
  let ksi := iribarren g0 H T (1 / cot) in
  let gam := gf * gb * gv * gbe in
  let Q := if design then Rpower (q / q_unit g0 H) (1 / 0.857) else q / q_unit g0 H in
  let without (x : R) := vg25_general cot ksi gam (x - 0.4 * Hsw / H) in
  let w (x : R) := vg25_gamma_w x (Ac / H) Q in
  Q = without x0 -> q / q_unit g0 H = vg25_maximum cot ksi gam (xmax - 0.4 * Hsw / H) -> Ac / H <= x0 ->
  exists r reached,
    value (Rvd (Fin H) (Fin Hsw) (Fin T) (Fin q) (Fin Ac) (Fin cot) beta B db Dn (Fin gf) (Fin gb) (Fin gv) (Fin gbe) (Fin g0) design true n (Fin tol))
      = Ok (Fin (Rmin r xmax), reached)
    /\ (reached = true <-> xmax <= r)
    /\ x0 <= r
    /\ (forall x, x0 <= x -> Q = without x * w x -> r <= x)
    /\ (forall x, x0 < x -> without x * w x < Q -> r < x)
    /\ (let k := gam * ksi / 5 * (0.075 * Rpower Q (- (0.3))) / w x0 in
        k < 1 -> exists x, x0 <= x /\ Q = without x * w x
          /\ (forall y, x0 <= y -> Q = without y * w y -> y = x)
          /\ (x - r <= k / (1 - k) * tol \/ x - r <= k ^ n * (x - x0))).
Proof.
  intros H T cot gf gb gv gbe Hsw q Ac beta B db Dn design n tol x0 xmax HH HT Hc Hgf Hgb Hgv Hgbe Hq ksi gam Q without w EQ EM Ha.
  assert (Hk : 0 < ksi) by (apply ksi_pos; assumption). assert (Hg : 0 < gam) by (apply gam_pos; assumption).
  pose proof (Rpower_pos ksi 0.24). pose proof (q_unit_pos g0 H g0_pos HH).
  assert (HQ' : 0 < q / q_unit g0 H) by (apply Rdiv_lt_0_compat; assumption).
  assert (HQ : 0 < Q) by (apply (undesigned_pos design) in HQ'; exact HQ').
  assert (A1 : 0 < 6.8 / cot) by rpos. assert (A2 : 0 < 0.8 / cot) by rpos.
  assert (B1 : 0 < gam * ksi / 5) by rpos. assert (B2 : 0 < gam * Rpower ksi 0.24 / 2.5) by rpos.
  set (sw := 0.4 * Hsw / H) in *. set (c := 0.075 * Rpower Q (- (0.3))). set (Bk := gam * ksi / 5) in *.
  assert (Hcp : 0 < c) by (unfold c; pose proof (Rpower_pos Q (- (0.3))); lra).
  assert (Ex0 : x0 = solve_regime (6.8 / cot) Bk Q + sw).
  { unfold without in EQ. rewrite general_regime in EQ by assumption. fold Bk in EQ. rewrite regime_eq in EQ by assumption. lra. }
  assert (Exm : xmax = solve_regime (0.8 / cot) (gam * Rpower ksi 0.24 / 2.5) (q / q_unit g0 H) + sw).
  { rewrite maximum_regime in EM by assumption. rewrite regime_eq in EM by assumption. lra. }
  set (f := windf x0 Bk c (Ac / H)).
  assert (Ww : forall x, w x = 1 + c * (x - Ac / H)) by (intros; unfold w, vg25_gamma_w, c; ring).
  assert (Wp : forall x, x0 <= x -> 1 <= w x) by (intros; rewrite Ww; apply (wind_arg x0); assumption).
  assert (Fl : forall x, x0 <= x -> without x * w x < Q -> f x < x).
  { intros x Hx. pose proof (Wp x Hx). unfold without. rewrite general_regime by assumption. fold Bk. intros L.
    assert (L' : regime (6.8 / cot) Bk (x - sw) < Q / w x).
    { apply (Rmult_lt_reg_r (w x)); [lra|]. replace (Q / w x * w x) with Q by (field; lra). assumption. }
    assert (HQw : 0 < Q / w x) by (apply Rdiv_lt_0_compat; lra).
    destruct (Rlt_le_dec (f x) x) as [|N]; [assumption|exfalso]. apply (Rlt_not_le _ _ L').
    apply regime_le; try assumption. revert N. unfold f, windf. rewrite <- Ww. rewrite Ex0. unfold solve_regime. rewrite (ln_div Q) by lra. lra. }
  (* a balancing freeboard is a fixed point *)
  assert (Fx : forall x, x0 <= x -> (Q = without x * w x <-> f x = x)).
  { intros x Hx. pose proof (Wp x Hx). unfold without. rewrite general_regime by assumption. fold Bk.
    assert (D : Q = regime (6.8 / cot) Bk (x - sw) * w x <-> Q / w x = regime (6.8 / cot) Bk (x - sw)) by (split; [intros E; rewrite E; field; lra|intros E; rewrite <- E; field; lra]).
    rewrite D. rewrite regime_eq by (try assumption; apply Rdiv_lt_0_compat; lra).
    unfold f, windf. rewrite <- Ww. rewrite Ex0. unfold solve_regime. rewrite (ln_div Q) by lra. split; lra. }
  pose proof (fun k => orbit_fin H T cot gf gb gv gbe Hsw q Ac design HH HT Hc Hgf Hgb Hgv Hgbe Hq k) as O.
  change (undesigned design (q / q_unit g0 H)) with Q in O. fold ksi gam in O. fold sw Bk c in O. rewrite <- Ex0 in O. fold f in O.
  set (step := fun Rc_diml =>
    let gamma_w := calculate_influence_wind_gamma_w (Rc_diml * Fin H)%num (Fin Ac) (Fin H) (Fin Q) in
    let q_diml_iter := (Fin Q / gamma_w)%num in
    Rc_diml_equation (Fin H) (Fin Hsw) q_diml_iter (Fin cot) (Fin ksi) (Fin gf) (Fin gb) (Fin gv) (Fin gbe)).
  destruct (loop_result step f x0 tol (fun k => O k Ha) n 0 PInf) as (k & Hkn & V & C).
  exists (iter f k x0). eexists. split; [|split; [|split; [|split; [|split]]]].
  - rewrite Rvd_value by assumption. fold ksi gam sw Bk. change (undesigned design (q / q_unit g0 H)) with Q. rewrite <- Exm, <- Ex0. change (iter f 0 x0) with x0 in V.
    change (fun Rc_diml : num => _) with step. rewrite V. cbv zeta. rewrite !nmin_fin. reflexivity.
  - unfold neqb. rewrite (Rmin_left (Rmin _ _)) by apply Rmin_r. apply reached_iff.
  - apply iter_above; assumption.
  - intros x Hx E. apply Fx in E; [|assumption]. apply iter_below; try assumption. fold f. lra.
  - intros x Hx E. apply iter_strictly_below; try assumption. apply Fl; [lra|assumption].
  - intros kk Hkk. assert (Ek : kk = windk x0 Bk c (Ac / H)) by (unfold kk, windk; rewrite <- Ww; reflexivity). clearbody kk. subst kk.
    destruct (wind_solution x0 Bk c (Ac / H) B1 Hcp Ha Hkk) as (p & Hp & Ep & U & Post).
    exists p. split; [assumption|]. split; [apply Fx; assumption|]. split; [intros y Hy E; apply U; [assumption|apply Fx; assumption]|].
    destruct C as [->|[[_ C]|(i & -> & _ & C)]].
    + right. cbn [plus]. apply wind_error; assumption.
    + discriminate C.
    + left. rewrite iter_S in *. specialize (Post (iter f i x0) (iter_above _ _ _ _ B1 Hcp Ha i)). fold f in Post.
      pose proof (Rle_abs (p - f (iter f i x0))). rewrite Rabs_minus_sym in Post.
      assert (0 <= windk x0 Bk c (Ac / H) / (1 - windk x0 Bk c (Ac / H))).
      { pose proof (windk_pos x0 Bk c (Ac / H) B1 Hcp Ha). apply Rmult_le_pos; [assumption|]. left. apply Rinv_0_lt_compat. lra. }
      assert (windk x0 Bk c (Ac / H) / (1 - windk x0 Bk c (Ac / H)) * Rabs (f (iter f i x0) - iter f i x0) <= windk x0 Bk c (Ac / H) / (1 - windk x0 Bk c (Ac / H)) * tol) by (apply Rmult_le_compat_l; assumption).
      lra.
Qed.

(** Without those assumptions the iteration can leave the domain of the
    logarithm, and the freeboard is not a number. *)
Theorem C28_freeboard_nan : forall H T cot gf gb gv gbe Hsw q Ac (beta B db Dn : num) (design : bool) n (tol x0 : R),
  0 < H -> 0 < T -> 0 < cot -> 0 < gf -> 0 < gb -> 0 < gv -> 0 < gbe -> 0 < q ->
  let ksi := iribarren g0 H T (1 / cot) in
  let gam := gf * gb * gv * gbe in
  let Q := if design then Rpower (q / q_unit g0 H) (1 / 0.857) else q / q_unit g0 H in
  Q = vg25_general cot ksi gam (x0 - 0.4 * Hsw / H) -> vg25_gamma_w x0 (Ac / H) Q < 0 ->
  value (Rvd (Fin H) (Fin Hsw) (Fin T) (Fin q) (Fin Ac) (Fin cot) beta B db Dn (Fin gf) (Fin gb) (Fin gv) (Fin gbe) (Fin g0) design true (S n) (Fin tol))
    = Ok (NaN, false).
Proof.
  intros H T cot gf gb gv gbe Hsw q Ac beta B db Dn design n tol x0 HH HT Hc Hgf Hgb Hgv Hgbe Hq ksi gam Q EQ Hw.
  assert (Hk : 0 < ksi) by (apply ksi_pos; assumption). assert (Hg : 0 < gam) by (apply gam_pos; assumption).
  pose proof (q_unit_pos g0 H g0_pos HH).
  assert (HQ' : 0 < q / q_unit g0 H) by (apply Rdiv_lt_0_compat; assumption).
  assert (HQ : 0 < Q) by (apply (undesigned_pos design) in HQ'; exact HQ').
  assert (A1 : 0 < 6.8 / cot) by rpos. assert (B1 : 0 < gam * ksi / 5) by rpos.
  assert (Ex0 : x0 = solve_regime (6.8 / cot) (gam * ksi / 5) Q + 0.4 * Hsw / H).
  { rewrite general_regime in EQ by assumption. rewrite regime_eq in EQ by assumption. lra. }
  rewrite Rvd_value by assumption. fold ksi gam. change (undesigned design (q / q_unit g0 H)) with Q. rewrite <- Ex0.
  cbn [wind_iterations ngt nlt]. cbv zeta. rewrite gamma_w_fin by assumption.
  rewrite (ndiv_fin Q) by lra.
  assert (E : Rc_diml_equation (Fin H) (Fin Hsw) (Fin (Q / vg25_gamma_w x0 (Ac / H) Q)) (Fin cot) (Fin ksi) (Fin gf) (Fin gb) (Fin gv) (Fin gbe) = NaN).
  { unfold Rc_diml_equation. rewrite (ndiv_fin 1) by lra. rewrite !nmul_fin.
    assert (Hneg : 1 / 6.8 * cot * (Q / vg25_gamma_w x0 (Ac / H) Q) < 0).
    { assert (0 < 1 / 6.8 * cot * (Q / - vg25_gamma_w x0 (Ac / H) Q)).
      { apply Rmult_lt_0_compat; [lra|]. apply Rdiv_lt_0_compat; lra. }
      replace (Q / vg25_gamma_w x0 (Ac / H) Q) with (- (Q / - vg25_gamma_w x0 (Ac / H) Q)) by (field; lra). lra. }
    set (u := 1 / 6.8 * cot * (Q / vg25_gamma_w x0 (Ac / H) Q)) in *. cbn [nlog]. rewrite Rltb_false, Reqb_false by lra. reflexivity. }
  rewrite E. destruct n; reflexivity.
Qed.

(** The discharge at which the freeboard is evaluated includes the influence of
    wind, that of the discharge itself does not: the freeboard found for the
    discharge of a crest above the armour is too low. *)
Theorem C28_round_trip_too_low : forall H T cot gf gb gv gbe Hsw Rc Ac (beta B db Dn : num) n tol,
  0 < H -> 0 < T -> 0 < cot -> 0 < gf -> 0 < gb -> 0 < gv -> 0 < gbe -> Ac < Rc ->
  let ksi := iribarren g0 H T (1 / cot) in
  let gam := gf * gb * gv * gbe in
  let D := vg25_discharge cot ksi gam ((Rc - 0.4 * Hsw) / H) in
  vg25_gamma_w (Rc / H) (Ac / H) D * D <= vg25_general cot ksi gam ((Ac - 0.4 * Hsw) / H) ->
  exists q reached x reached',
    value (qv (Fin H) (Fin Hsw) (Fin T) (Fin Rc) (Fin Ac) (Fin cot) beta B db Dn (Fin gf) (Fin gb) (Fin gv) (Fin gbe) (Fin g0) false true) = Ok (Fin q, reached) /\
    value (Rvd (Fin H) (Fin Hsw) (Fin T) (Fin q) (Fin Ac) (Fin cot) beta B db Dn (Fin gf) (Fin gb) (Fin gv) (Fin gbe) (Fin g0) false true n (Fin tol)) = Ok (Fin x, reached') /\
    x * H < Rc.
Proof.
  intros H T cot gf gb gv gbe Hsw Rc Ac beta B db Dn n tol HH HT Hc Hgf Hgb Hgv Hgbe HA ksi gam D HQa.
  set (w := vg25_gamma_w (Rc / H) (Ac / H) D) in *.
  assert (Hk : 0 < ksi) by (apply ksi_pos; assumption). assert (Hg : 0 < gam) by (apply gam_pos; assumption).
  assert (HD : 0 < D) by (apply discharge_pos; assumption).
  pose proof (Rpower_pos ksi 0.24) as Hkp. pose proof (q_unit_pos g0 H g0_pos HH) as HU.
  assert (A1 : 0 < 6.8 / cot) by rpos. assert (A2 : 0 < 0.8 / cot) by rpos.
  assert (B1 : 0 < gam * ksi / 5) by rpos. assert (B2 : 0 < gam * Rpower ksi 0.24 / 2.5) by rpos.
  destruct (C28_discharge g0 H T cot gf gb gv gbe Hsw Rc Ac beta B db Dn g0_pos HH HT Hc Hgf Hgb Hgv Hgbe) as (q0 & reached & E1 & E2 & _ & Hw & _).
  cbv zeta in E2, Hw. fold ksi gam in E2, Hw. fold D in E2, Hw. fold w in E2, Hw. apply Hw in HA as Hw1.
  rewrite qv_value in E1 by (try exact g0_pos; assumption). fold ksi gam in E1. fold D in E1. cbn [designed] in E1.
  injection E1 as Eq0 _.
  set (q := w * q0). assert (EqQ : q / q_unit g0 H = w * D) by (unfold q; rewrite <- Eq0; field; lra).
  assert (HwD : D < w * D) by (assert (0 < (w - 1) * D) by (apply Rmult_lt_0_compat; lra); lra).
  assert (Hq : 0 < q). { replace q with (w * D * q_unit g0 H) by (unfold q; rewrite <- Eq0; ring). apply Rmult_lt_0_compat; lra. }
  set (x0 := solve_regime (6.8 / cot) (gam * ksi / 5) (w * D) + 0.4 * Hsw / H).
  set (xm := solve_regime (0.8 / cot) (gam * Rpower ksi 0.24 / 2.5) (w * D) + 0.4 * Hsw / H).
  assert (G : forall t, vg25_general cot ksi gam (t - 0.4 * Hsw / H) = regime (6.8 / cot) (gam * ksi / 5) (t - 0.4 * Hsw / H)) by (intros; apply general_regime; assumption).
  assert (M : forall t, vg25_maximum cot ksi gam (t - 0.4 * Hsw / H) = regime (0.8 / cot) (gam * Rpower ksi 0.24 / 2.5) (t - 0.4 * Hsw / H)) by (intros; apply maximum_regime; assumption).
  assert (S1 : forall u, (u - 0.4 * Hsw) / H = u / H - 0.4 * Hsw / H) by (intros; field; lra).
  destruct (C28_freeboard H T cot gf gb gv gbe Hsw q Ac beta B db Dn false n tol x0 xm HH HT Hc Hgf Hgb Hgv Hgbe Hq) as (r & b & V & _ & _ & _ & Hr & _).
  - cbv zeta. fold ksi gam. rewrite EqQ, G. apply regime_eq; try assumption; [lra|]. unfold x0. lra.
  - fold ksi gam. rewrite EqQ, M. apply regime_eq; try assumption; [lra|]. unfold xm. lra.
  - rewrite S1, G in HQa. apply regime_le in HQa; try assumption; [|lra]. unfold x0. lra.
  - cbv zeta in Hr. fold ksi gam in Hr. rewrite EqQ in Hr.
    exists q, reached, (Rmin r xm), b. split; [exact E2|]. split; [exact V|].
    assert (L : Rmin r xm < Rc / H).
    { destruct (Rle_lt_dec (vg25_general cot ksi gam ((Rc - 0.4 * Hsw) / H)) (vg25_maximum cot ksi gam ((Rc - 0.4 * Hsw) / H))) as [C|C].
      - eapply Rle_lt_trans; [apply Rmin_l|].
        assert (ED : D = vg25_general cot ksi gam ((Rc - 0.4 * Hsw) / H)) by (unfold D, vg25_discharge; apply Rmin_left; assumption).
        rewrite S1 in ED. apply Hr.
        + destruct (Rlt_le_dec x0 (Rc / H)) as [|N]; [assumption|exfalso]. apply (Rlt_not_le _ _ HwD).
          rewrite ED at 2. rewrite G. apply regime_le; try assumption; [lra|]. unfold x0 in N. lra.
        + rewrite <- ED. rewrite (Rmult_comm w D). apply Rmult_lt_compat_l; [assumption|]. unfold w at 2, vg25_gamma_w.
          assert (Rpower (D * w) (- (0.3)) < Rpower D (- (0.3))).
          { apply Rpower_lt_base_neg; lra. }
          assert (0 < Rc / H - Ac / H) by (replace (Rc / H - Ac / H) with ((Rc - Ac) / H) by (field; lra); apply Rdiv_lt_0_compat; lra).
          apply Rplus_lt_compat_l. apply Rmult_lt_compat_l; [lra|assumption].
      - eapply Rle_lt_trans; [apply Rmin_r|].
        assert (ED : D = vg25_maximum cot ksi gam ((Rc - 0.4 * Hsw) / H)) by (unfold D, vg25_discharge; apply Rmin_right; lra).
        rewrite S1 in ED.
        destruct (Rlt_le_dec xm (Rc / H)) as [|N]; [assumption|exfalso]. apply (Rlt_not_le _ _ HwD).
        rewrite ED at 2. rewrite M. apply regime_le; try assumption; [lra|]. unfold xm in N. lra. }
    apply (Rmult_lt_compat_r H) in L; [|assumption]. replace (Rc / H * H) with Rc in L by (field; lra). exact L.
Qed.

(** The function for the freeboard itself: at most 1000 iterations, to 1e-5. *)
Theorem C28_freeboard_default : forall H T cot gf gb gv gbe Hsw q Ac (beta B db Dn : num) (design : bool) (x0 xmax x : R),
  0 < H -> 0 < T -> 0 < cot -> 0 < gf -> 0 < gb -> 0 < gv -> 0 < gbe -> 0 < q ->
  let ksi := iribarren g0 H T (1 / cot) in
  let gam := gf * gb * gv * gbe in
  let Q := if design then Rpower (q / q_unit g0 H) (1 / 0.857) else q / q_unit g0 H in
  let without (x : R) := vg25_general cot ksi gam (x - 0.4 * Hsw / H) in
  let w (x : R) := vg25_gamma_w x (Ac / H) Q in
  let k := gam * ksi / 5 * (0.075 * Rpower Q (- (0.3))) / w x0 in
  Q = without x0 -> q / q_unit g0 H = vg25_maximum cot ksi gam (xmax - 0.4 * Hsw / H) -> Ac / H <= x0 ->
  k < 1 -> x0 <= x -> Q = without x * w x ->
  exists r reached,
    value (Rv (Fin H) (Fin Hsw) (Fin T) (Fin q) (Fin Ac) (Fin cot) beta B db Dn (Fin gf) (Fin gb) (Fin gv) (Fin gbe) design true)
      = Ok (Fin (Rmin r xmax * H), reached)
    /\ r <= x /\ (x - r <= k / (1 - k) * 1e-5 \/ x - r <= k ^ 1000 * (x - x0)).
Proof.
  intros H T cot gf gb gv gbe Hsw q Ac beta B db Dn design x0 xmax x HH HT Hc Hgf Hgb Hgv Hgbe Hq ksi gam Q without w k EQ EM Ha Hk Hx Ex.
  destruct (C28_freeboard H T cot gf gb gv gbe Hsw q Ac beta B db Dn design max_iter_default (1 / 100000) x0 xmax HH HT Hc Hgf Hgb Hgv Hgbe Hq EQ EM Ha)
    as (r & b & V & _ & _ & Hr & _ & Hs).
  exists r, b. split; [|split].
  - unfold Rv, g_default. fold g0. mval. change tolerance_default with (Fin (1 / 100000)). rewrite V. cbn [value]. mval. nfin. reflexivity.
  - apply Hr; assumption.
  - destruct (Hs Hk) as (y & Hy & Ey & U & D). rewrite (U x Hx Ex).
    replace 1e-5 with (1 / 100000) by lra. exact D.
Qed.

(** A crest 1 m above an armour at still water: the factor for wind. *)
Example C28_example : forall g T, 0 < g -> 0 < T ->
  value (qv #1 #0 (Fin T) #0 (Fin (- (1))) #2 NaN #0 #0 NaN #0.5 #1 #1 #1 (Fin g) false true)
  = Ok (Fin ((1 + 0.075 * Rpower 0.4 (- (0.3))) * (0.4 * sqrt g)), true).
Proof.
  intros g T Hg HT.
  destruct (C28_discharge g 1 T 2 0.5 1 1 1 0 0 (- (1)) NaN #0 #0 NaN Hg) as (q & b & E1 & E2 & _); try lra. cbv zeta in E1, E2.
  pose proof (C26_discharge g 1 T 2 0.5 1 1 1 0 0 false (Fin (- (1))) NaN #0 #0 NaN) as C.
  destruct C as (b' & E & Hb); try lra. cbv zeta in E, Hb. rewrite E in E1. injection E1 as Eq Eb.
  rewrite E2. subst q b.
  unfold vg25_discharge, vg25_general, vg25_maximum in *. replace ((0 - 0.4 * 0) / 1) with 0 in * by lra.
  rewrite !Rmult_0_r in *. unfold Rdiv in *. rewrite !Rmult_0_l, !Ropp_0, !exp_0 in *.
  rewrite Rmin_right in * by lra. unfold q_unit, vg25_gamma_w. replace (g * 1 ^ 3) with g by ring.
  replace (0.8 * / 2 * 1) with 0.4 by lra.
  do 2 f_equal; [f_equal; lra|]. apply Hb. lra.
Qed.
