(** Property C47: Kramer and Burcharth (2004), low-crested structures. *)
From Coq Require Import Reals ZArith Lra Lia List Bool String Psatz.
From Verif.Lib Require Import Num Monad RTac NTac Contraction.
From Verif.Spec Require Import Waves Rock.
From Verif.Model Require Import CoreUtility CorePhysics KramerBurcharth2004.
From Verif.Proofs Require Import Core CheckTac.
Import ListNotations.
Open Scope R_scope.

Lemma checks_kb a b : value (check_validity_range a b) = Ok tt.
Proof. unfold check_validity_range. mchecks. reflexivity. Qed.
Lemma usage_fin D m rho : check_usage_Dn50_or_M50 (Fin D) m rho = ret (Fin D).
Proof. reflexivity. Qed.

Lemma nmul_pos_ninf a : 0 < a -> nmul (Fin a) NInf = NInf.
Proof. intros. simpl. unfold inf_mul. rewrite Reqb_false, Rltb_true by lra. reflexivity. Qed.
Lemma nmul_neg_ninf a : a < 0 -> nmul (Fin a) NInf = PInf.
Proof. intros. simpl. unfold inf_mul. rewrite Reqb_false, Rltb_false by lra. reflexivity. Qed.

(** ** The loop *)
Lemma iteration_fin step F tol (P : R -> Prop) :
  (forall x, P x -> step (Fin x) = Fin (F x)) -> (forall x, P x -> P (F x)) ->
  forall cap x d, P x -> iteration step (Fin tol) cap (Fin x) (Fin x) (Fin d) = Fin (rcap F tol cap x d).
Proof.
  intros Hs HP. induction cap; intros x d Hx; cbn [iteration rcap]; rewrite ngt_fin; destruct (Rltb tol d); try reflexivity.
  rewrite Hs by assumption. nfin. apply IHcap. auto.
Qed.

Lemma iteration_start step F tol (P : R -> Prop) :
  (forall x, P x -> step (Fin x) = Fin (F x)) -> (forall x, P x -> P (F x)) ->
  forall cap x, P x ->
  iteration step (Fin tol) (S (S cap)) (Fin x) PInf PInf
  = Fin (rcap F tol cap (F (F x)) (Rabs (F (F x) - F x))).
Proof.
  intros Hs HP cap x Hx. cbn [iteration]. change (ngt PInf (Fin tol)) with true. cbv iota zeta.
  rewrite (Hs x Hx). change (nabs (Fin (F x) - PInf)%num) with PInf. change (ngt PInf (Fin tol)) with true. cbv iota zeta.
  rewrite (Hs (F x)) by auto. nfin. apply (iteration_fin step F tol P); auto.
Qed.

Definition loop_state (step : num -> num) (tol : R) (x p d : num) : Prop :=
  (d = PInf /\ (p = PInf \/ p = x)) \/ (p = x /\ exists y, x = step y /\ d = nabs (x - y)%num)
  \/ (ngt d (Fin tol) = false /\ forall r, x <> Fin r).

Lemma settled step tol r : 0 <= tol -> forall cap x p d,
  loop_state step tol x p d ->
  iteration step (Fin tol) cap x p d = Fin r -> iteration step (Fin tol) (S cap) x p d = Fin r ->
  exists y, step y = Fin r /\ ngt (nabs (Fin r - y)%num) (Fin tol) = false.
Proof.
  intros Ht. induction cap; intros x p d L E E'.
  - cbn [iteration] in E, E'. destruct (ngt d (Fin tol)) eqn:G.
    + exists (Fin r). subst x. destruct (ngt (nabs (step (Fin r) - p)%num) (Fin tol)) in E'; split; try assumption;
        nfin; replace (r - r) with 0 by ring; rewrite Rabs_R0; apply Rltb_false; lra.
    + destruct L as [(-> & _)|[(-> & y & Ex & ->)|(_ & N)]].
      * discriminate.
      * exists y. subst. split; [congruence|]. rewrite E' in G. exact G.
      * exfalso. exact (N r E').
  - change (iteration step (Fin tol) (S cap) x p d) with
      (if ngt d (Fin tol) then iteration step (Fin tol) cap (step x) (step x) (nabs (step x - p)%num) else x) in E.
    change (iteration step (Fin tol) (S (S cap)) x p d) with
      (if ngt d (Fin tol) then iteration step (Fin tol) (S cap) (step x) (step x) (nabs (step x - p)%num) else x) in E'.
    destruct (ngt d (Fin tol)) eqn:G.
    + apply (IHcap (step x) (step x) (nabs (step x - p)%num)); try assumption.
      assert (Q : p = x \/ p = PInf).
      { destruct L as [(_ & [H|H])|[(H & _)|(H & _)]]; auto. rewrite H in G. discriminate. }
      destruct Q as [->| ->].
      * right. left. split; [reflexivity|]. exists x. split; reflexivity.
      * destruct (step x); cbn; [left|right; right|left|right; right]; try (split; [reflexivity|]); auto;
          intros q; discriminate.
    + destruct L as [(-> & _)|[(-> & y & Ex & ->)|(_ & N)]].
      * discriminate.
      * exists y. subst. split; [congruence|]. rewrite E in G. exact G.
      * exfalso. exact (N r E).
Qed.

Lemma start_state step tol x : loop_state step tol x PInf PInf.
Proof. left. split; [reflexivity|]. left. reflexivity. Qed.

(** ** The steps *)
Definition dstep (H Rc De : R) (D : R) : R := 1 / 1.36 * (H / De - Rc * (0.06 * (Rc / D) - 0.23)).
Definition rstep (H D De : R) (Rc : R) : R := (H / De - 1.36 * D) / (0.06 * (Rc / D) - 0.23).

Definition dstep_num (H Rc De Dn50 : num) : num := ((#1 / #1.36) * ((H / De) - Rc * (#0.06 * (Rc / Dn50) - #0.23)))%num.
Definition rstep_num (H D De Rc : num) : num := (((H / De) - #1.36 * D) / (#0.06 * (Rc / D) - #0.23))%num.

Lemma dstep_fin H Rc De D : De <> 0 -> D <> 0 -> dstep_num (Fin H) (Fin Rc) (Fin De) (Fin D) = Fin (dstep H Rc De D).
Proof. intros. unfold dstep_num, dstep. nfin. reflexivity. Qed.
Lemma rstep_fin H D De Rc : De <> 0 -> D <> 0 -> 0.06 * (Rc / D) - 0.23 <> 0 ->
  rstep_num (Fin H) (Fin D) (Fin De) (Fin Rc) = Fin (rstep H D De Rc).
Proof. intros. unfold rstep_num, rstep. nfin. reflexivity. Qed.

Lemma dstep_back H Rc De y r tol : De <> 0 -> dstep_num (Fin H) (Fin Rc) (Fin De) y = Fin r ->
  ngt (nabs (Fin r - y)%num) (Fin tol) = false ->
  exists d, y = Fin d /\ d <> 0 /\ r = dstep H Rc De d /\ Rabs (r - d) <= tol.
Proof.
  intros HDe E G. destruct y as [d| | |]; try discriminate G.
  - exists d. split; [reflexivity|].
    destruct (Req_dec d 0) as [->|Hd].
    + exfalso. unfold dstep_num in E. destruct (total_order_T Rc 0) as [[L|L]|L].
      * revert E. rewrite (ndiv_neg_0 Rc L). rewrite nmul_pos_ninf by lra. cbn [nsub nadd nneg].
        rewrite nmul_neg_ninf by assumption. rewrite !ndiv_fin by lra. cbn [nsub nadd nneg]. rewrite nmul_pos_ninf by lra. discriminate.
      * subst Rc. rewrite ndiv_0_0 in E. revert E. nnan. discriminate.
      * revert E. rewrite (ndiv_pos_0 Rc L). rewrite nmul_pos_pinf by lra. cbn [nsub nadd nneg].
        rewrite nmul_pos_pinf by assumption. rewrite !ndiv_fin by lra. cbn [nsub nadd nneg]. rewrite nmul_pos_ninf by lra. discriminate.
    + rewrite dstep_fin in E by assumption. injection E as E. split; [assumption|]. split; [auto|].
      revert G. nfin. intros G. destruct (Rltb_spec tol (Rabs (r - d))); [discriminate|]. lra.
  - exfalso. unfold dstep_num in E. revert E. nnan. discriminate.
Qed.

Lemma rstep_back H D De y r tol : De <> 0 -> 0 < D -> r <> 0 -> rstep_num (Fin H) (Fin D) (Fin De) y = Fin r ->
  ngt (nabs (Fin r - y)%num) (Fin tol) = false ->
  exists c, y = Fin c /\ 0.06 * (c / D) - 0.23 <> 0 /\ r = rstep H D De c /\ Rabs (r - c) <= tol.
Proof.
  intros HDe HD Hr E G. destruct y as [d| | |]; try discriminate G.
  - exists d. split; [reflexivity|].
    destruct (Req_dec (0.06 * (d / D) - 0.23) 0) as [Z|Hd].
    + exfalso. unfold rstep_num in E. rewrite !ndiv_fin in E by lra. revert E. nfin. rewrite Z.
      set (c := H / De - 1.36 * D). destruct (total_order_T c 0) as [[L|L]|L].
      * rewrite ndiv_neg_0 by assumption. discriminate.
      * rewrite L, ndiv_0_0. discriminate.
      * rewrite ndiv_pos_0 by assumption. discriminate.
    + rewrite rstep_fin in E by (assumption || lra). injection E as E. split; [assumption|]. split; [auto|].
      revert G. nfin. intros G. destruct (Rltb_spec tol (Rabs (r - d))); [discriminate|]. lra.
  - exfalso. unfold rstep_num in E. revert E. nnan. discriminate.
Qed.

Section Functions.
Variables (H rs : R).
Hypotheses (Hrs : 1025 < rs).
Let De := buoyant rs 1025.
Lemma De_p : 0 < De. Proof. apply buoyant_pos; lra. Qed.

Lemma diameter_value Rc Ns cap tol : Ns <> 0 ->
  value (calculate_nominal_rock_diameter_Dn50 (Fin H) (Fin Rc) (Fin rs) (Fin Ns) cap (Fin tol))
  = Ok (iteration (dstep_num (Fin H) (Fin Rc) (Fin De)) (Fin tol) cap (Fin (H / (De * Ns))) PInf PInf).
Proof.
  intros HN. pose proof De_p. unfold calculate_nominal_rock_diameter_Dn50. mval. rewrite checks_kb. mval.
  rewrite Delta_fin by lra. fold De. fold (dstep_num (Fin H) (Fin Rc) (Fin De)).
  replace (Fin H / (Fin De * Fin Ns))%num with (Fin (H / (De * Ns))). { reflexivity. }
  nfin. rewrite ndiv_fin. { reflexivity. } apply Rmult_integral_contrapositive_currified; lra.
Qed.

Lemma freeboard_value D m50 x0 cap tol :
  value (calculate_crest_freeboard_Rc (Fin H) (Fin rs) (Fin D) m50 (Fin x0) cap (Fin tol))
  = Ok (iteration (rstep_num (Fin H) (Fin D) (Fin De)) (Fin tol) cap (Fin (x0 * D)) PInf PInf).
Proof.
  unfold calculate_crest_freeboard_Rc. rewrite usage_fin, bind_ret_l. mval. rewrite checks_kb. mval.
  rewrite Delta_fin by lra. fold De. fold (rstep_num (Fin H) (Fin D) (Fin De)). nfin. reflexivity.
Qed.
End Functions.

Lemma height_value Rc rs D m50 : 1025 < rs -> 0 < D ->
  value (calculate_significant_wave_height_Hs (Fin Rc) (Fin rs) (Fin D) m50)
  = Ok (Fin ((0.06 * (Rc / D) ^ 2 - 0.23 * (Rc / D) + 1.36) * buoyant rs 1025 * D)).
Proof.
  intros. unfold calculate_significant_wave_height_Hs. rewrite usage_fin, bind_ret_l. mval. rewrite checks_kb. mval.
  rewrite Delta_fin by lra. nfin. do 2 f_equal. field. lra.
Qed.

(** ** C47 *)

Theorem C47_wave_height_agrees_with_relation :
  forall Rc rs D H m50, 1025 < rs -> 0 < D ->
    (value (calculate_significant_wave_height_Hs (Fin Rc) (Fin rs) (Fin D) m50) = Ok (Fin H)
     <-> kramer (rs / 1025 - 1) D Rc H).
Proof.
  intros Rc rs D H m50 Hrs HD. rewrite height_value by assumption. unfold kramer. fold (buoyant rs 1025).
  assert (0 < buoyant rs 1025) by (apply buoyant_pos; lra). split.
  - intros E. injection E as <-. field. lra.
  - intros <-. do 2 f_equal. field. lra.
Qed.

(** Every wave height from (1.36 - 0.23²/0.24) Delta D has a freeboard, no
    smaller one has. *)
Theorem C47_smallest_wave_height :
  forall De D H, 0 < De -> 0 < D ->
    ((exists Rc, kramer De D Rc H) <-> (1.36 - 0.23 ^ 2 / 0.24) * De * D <= H).
Proof.
  intros De D H HDe HD. unfold kramer.
  assert (S : forall x, 0.06 * x ^ 2 - 0.23 * x + 1.36 = 0.06 * (x - 23 / 12) ^ 2 + (1.36 - 0.23 ^ 2 / 0.24)) by (intros; lra).
  assert (P : 0 < De * D) by rpos. split.
  - intros (Rc & E). rewrite S in E. assert (H = (0.06 * (Rc / D - 23 / 12) ^ 2 + (1.36 - 0.23 ^ 2 / 0.24)) * (De * D)).
    { rewrite <- E. field. lra. }
    assert (0 <= 0.06 * (Rc / D - 23 / 12) ^ 2) by (pose proof (pow2_ge_0 (Rc / D - 23 / 12)); lra).
    assert (0 <= 0.06 * (Rc / D - 23 / 12) ^ 2 * (De * D)) by (apply Rmult_le_pos; lra). lra.
  - intros L. exists (D * (23 / 12 - sqrt ((H / (De * D) - (1.36 - 0.23 ^ 2 / 0.24)) / 0.06))).
    rewrite S. replace (D * (23 / 12 - sqrt ((H / (De * D) - (1.36 - 0.23 ^ 2 / 0.24)) / 0.06)) / D - 23 / 12)
      with (- sqrt ((H / (De * D) - (1.36 - 0.23 ^ 2 / 0.24)) / 0.06)) by (field; lra).
    replace ((- sqrt ((H / (De * D) - (1.36 - 0.23 ^ 2 / 0.24)) / 0.06)) ^ 2)
      with ((sqrt ((H / (De * D) - (1.36 - 0.23 ^ 2 / 0.24)) / 0.06)) ^ 2) by ring.
    rewrite pow2_sqrt. { lra. }
    assert ((1.36 - 0.23 ^ 2 / 0.24) <= H / (De * D)).
    { apply (Rmult_le_reg_r (De * D)); [assumption|]. replace (H / (De * D) * (De * D)) with H by (field; lra). lra. }
    apply Rmult_le_pos; lra.
Qed.

(** When the diameter no longer changes with the cap, the wave height at the
    returned diameter is off by at most an explicit multiple of the tolerance. *)
Theorem C47_diameter_residual :
  forall H Rc rs Ns max_iter tol D, 1025 < rs -> Ns <> 0 -> 0 <= tol -> 0 < D ->
    value (calculate_nominal_rock_diameter_Dn50 (Fin H) (Fin Rc) (Fin rs) (Fin Ns) max_iter (Fin tol)) = Ok (Fin D) ->
    value (calculate_nominal_rock_diameter_Dn50 (Fin H) (Fin Rc) (Fin rs) (Fin Ns) (S max_iter) (Fin tol)) = Ok (Fin D) ->
    exists D0, D0 <> 0 /\ Rabs (D - D0) <= tol
      /\ forall m50, exists H', value (calculate_significant_wave_height_Hs (Fin Rc) (Fin rs) (Fin D) m50) = Ok (Fin H')
         /\ Rabs (H' - H) <= 0.06 * (rs / 1025 - 1) * Rc ^ 2 / (D * Rabs D0) * tol.
Proof.
  intros H Rc rs Ns max_iter tol D Hrs HN Ht HD. rewrite !diameter_value by assumption. intros E E'.
  pose proof (De_p rs Hrs) as HDe. cbv zeta in HDe. set (De := buoyant rs 1025) in *.
  assert (E1 : iteration (dstep_num (Fin H) (Fin Rc) (Fin De)) (Fin tol) max_iter (Fin (H / (De * Ns))) PInf PInf = Fin D) by congruence.
  assert (E2 : iteration (dstep_num (Fin H) (Fin Rc) (Fin De)) (Fin tol) (S max_iter) (Fin (H / (De * Ns))) PInf PInf = Fin D) by congruence.
  destruct (settled _ tol D Ht _ _ _ _ (start_state _ _ _) E1 E2) as (y & Ey & G).
  apply (dstep_back _ _ _ _ _ tol) in Ey; [|lra|exact G]. destruct Ey as (d & -> & Hd & Er & L).
  exists d. split; [assumption|]. split; [assumption|]. intros m50. eexists. split; [apply height_value; assumption|].
  fold De. assert (R : (0.06 * (Rc / D) ^ 2 - 0.23 * (Rc / D) + 1.36) * De * D - H = 0.06 * De * Rc ^ 2 * (d - D) / (D * d)).
  { assert (1.36 * D = H / De - Rc * (0.06 * (Rc / d) - 0.23)) by (rewrite Er; unfold dstep; lra).
    assert (X : H = De * (1.36 * D + Rc * (0.06 * (Rc / d) - 0.23))) by (rewrite H0; field; lra).
    rewrite X. field. lra. }
  rewrite R. fold (buoyant rs 1025). fold De.
  replace (0.06 * De * Rc ^ 2 * (d - D) / (D * d)) with ((0.06 * De * Rc ^ 2 / D) * ((d - D) / d)) by (field; lra).
  rewrite Rabs_mult, Rabs_pos_eq.
  2:{ pose proof (pow2_ge_0 Rc). apply Rmult_le_pos; [|left; apply Rinv_0_lt_compat; assumption]. apply Rmult_le_pos; lra. }
  unfold Rdiv at 2. rewrite Rabs_mult, Rabs_inv, Rabs_minus_sym.
  assert (0 < Rabs d) by (apply Rabs_pos_lt; assumption).
  replace (0.06 * De * Rc ^ 2 / (D * Rabs d) * tol) with (0.06 * De * Rc ^ 2 / D * (tol * / Rabs d)) by (field; lra).
  apply Rmult_le_compat_l.
  { pose proof (pow2_ge_0 Rc). apply Rmult_le_pos; [|left; apply Rinv_0_lt_compat; assumption]. apply Rmult_le_pos; lra. }
  apply Rmult_le_compat_r; [left; apply Rinv_0_lt_compat; assumption|assumption].
Qed.

Theorem C47_freeboard_residual :
  forall H D rs m50 x0 max_iter tol Rc, 1025 < rs -> 0 <= tol -> 0 < D -> Rc <> 0 ->
    value (calculate_crest_freeboard_Rc (Fin H) (Fin rs) (Fin D) m50 (Fin x0) max_iter (Fin tol)) = Ok (Fin Rc) ->
    value (calculate_crest_freeboard_Rc (Fin H) (Fin rs) (Fin D) m50 (Fin x0) (S max_iter) (Fin tol)) = Ok (Fin Rc) ->
    exists H', value (calculate_significant_wave_height_Hs (Fin Rc) (Fin rs) (Fin D) m50) = Ok (Fin H')
         /\ Rabs (H' - H) <= 0.06 * (rs / 1025 - 1) * Rabs Rc / D * tol.
Proof.
  intros H D rs m50 x0 max_iter tol Rc Hrs Ht HD Hr. rewrite !freeboard_value by assumption. intros E E'.
  pose proof (De_p rs Hrs) as HDe. cbv zeta in HDe. set (De := buoyant rs 1025) in *.
  assert (E1 : iteration (rstep_num (Fin H) (Fin D) (Fin De)) (Fin tol) max_iter (Fin (x0 * D)) PInf PInf = Fin Rc) by congruence.
  assert (E2 : iteration (rstep_num (Fin H) (Fin D) (Fin De)) (Fin tol) (S max_iter) (Fin (x0 * D)) PInf PInf = Fin Rc) by congruence.
  destruct (settled _ tol Rc Ht _ _ _ _ (start_state _ _ _) E1 E2) as (y & Ey & G).
  apply (rstep_back _ _ _ _ _ tol) in Ey; [|lra|assumption|assumption|exact G]. destruct Ey as (c & -> & Hc & Er & L).
  eexists. split; [apply height_value; assumption|].
  fold De. assert (R : (0.06 * (Rc / D) ^ 2 - 0.23 * (Rc / D) + 1.36) * De * D - H = 0.06 * De * Rc / D * (Rc - c)).
  { assert (X : Rc * (0.06 * (c / D) - 0.23) = H / De - 1.36 * D).
    { rewrite Er. unfold rstep. unfold Rdiv at 1. rewrite Rmult_assoc, Rinv_l by assumption. ring. }
    assert (H = De * (Rc * (0.06 * (c / D) - 0.23) + 1.36 * D)) by (rewrite X; field; lra).
    rewrite H0. field. lra. }
  rewrite R. fold (buoyant rs 1025). fold De.
  rewrite Rabs_mult. replace (0.06 * De * Rc / D) with (0.06 * De / D * Rc) by (field; lra).
  assert (0 < 0.06 * De / D) by rpos. rewrite Rabs_mult, (Rabs_pos_eq (0.06 * De / D)) by lra.
  replace (0.06 * De * Rabs Rc / D) with (0.06 * De / D * Rabs Rc) by (field; lra).
  apply Rmult_le_compat_l; [|assumption]. apply Rmult_le_pos; [lra|apply Rabs_pos].
Qed.

(** ** Convergence in the published range *)
Lemma iteration_shrinks step F (P : R -> Prop) k p tol :
  0 <= k < 1 -> 0 <= tol -> (forall x, P x -> step (Fin x) = Fin (F x)) -> (forall x, P x -> P (F x)) ->
  (forall x, P x -> Rabs (F x - p) <= k * Rabs (x - p)) ->
  forall cap x, P x -> exists r, iteration step (Fin tol) cap (Fin x) PInf PInf = Fin r
    /\ Rabs (r - p) <= Rmax (k / (1 - k) * tol) (k ^ cap * Rabs (x - p)).
Proof.
  intros Hk Ht Hst HP Hs cap x Hx. destruct cap as [|[|cap]].
  - exists x. split; [cbn [iteration]; destruct (ngt PInf (Fin tol)); reflexivity|].
    eapply Rle_trans; [|apply Rmax_r]. simpl. lra.
  - exists (F x). split.
    + cbn [iteration]. change (ngt PInf (Fin tol)) with true. cbv iota zeta. rewrite Hst by assumption.
      destruct (ngt _ _); reflexivity.
    + eapply Rle_trans; [|apply Rmax_r]. simpl. specialize (Hs x Hx). lra.
  - rewrite (iteration_start step F tol P) by assumption. eexists. split; [reflexivity|].
    eapply Rle_trans; [apply (rcap_shrinks F P k p tol Hk HP Hs cap (F x)); auto|].
    apply Rle_max_compat_l. pose proof (Hs x Hx). pose proof (Hs (F x) (HP x Hx)).
    assert (0 <= k ^ cap) by (apply pow_le; lra).
    apply (Rle_trans _ (k ^ cap * (k * (k * Rabs (x - p))))).
    + apply Rmult_le_compat_l; [assumption|]. eapply Rle_trans; [eassumption|]. apply Rmult_le_compat_l; lra.
    + right. simpl. ring.
Qed.

(** From x0 on, the step stays in a set of reals on which it brings every number
    closer to p by the factor k. *)
Definition shrinking (step : num -> num) (x0 p k : R) : Prop :=
  exists (F : R -> R) (P : R -> Prop), P x0 /\ (forall u, P u -> step (Fin u) = Fin (F u))
  /\ (forall u, P u -> P (F u)) /\ (forall u, P u -> Rabs (F u - p) <= k * Rabs (u - p)).

Lemma diameter_shrinking :
  forall H Rc rs D, 1025 < rs -> 0 < D -> -(3.1) <= Rc / D <= 1.5 -> kramer (rs / 1025 - 1) D Rc H ->
    let De := buoyant rs 1025 in
    0 < De /\ shrinking (dstep_num (Fin H) (Fin Rc) (Fin De)) (H / (De * 2)) D (/ 2) /\ Rabs (H / (De * 2) - D) <= D.
Proof.
  intros H Rc rs D Hrs HD Hx E De0. unfold kramer in E. fold (buoyant rs 1025) in E.
  pose proof (De_p rs Hrs) as HDe. cbv zeta in HDe. unfold De0. clear De0. set (De := buoyant rs 1025) in *. split; [assumption|].
  set (x := Rc / D) in *. assert (ERc : Rc = x * D) by (unfold x; field; lra).
  assert (EH : H = (0.06 * x ^ 2 - 0.23 * x + 1.36) * (De * D)) by (rewrite <- E; field; lra).
  assert (Ex0 : H / (De * 2) = (0.06 * x ^ 2 - 0.23 * x + 1.36) / 2 * D) by (rewrite EH; field; lra).
  rewrite Ex0. set (n2 := (0.06 * x ^ 2 - 0.23 * x + 1.36) / 2) in *.
  set (q := 0.06 * x ^ 2 / 1.36).
  assert (Hq0 : 0 <= q) by (unfold q; pose proof (pow2_ge_0 x); lra).
  assert (Hx2 : 0 <= (x + 3.1) * (1.5 - x)) by (apply Rmult_le_pos; lra).
  assert (Hq1 : 2 * q <= 1) by (unfold q; lra).
  assert (Hn : 2 * q <= n2 /\ 0 <= n2 <= 2) by (pose proof (pow2_ge_0 x); unfold q, n2; repeat split; lra).
  assert (St : forall u, 0 < u -> dstep H Rc De u = D + q * D / u * (u - D)).
  { intros u Hu. unfold dstep, q. rewrite EH, ERc. field. lra. }
  set (P := fun u => 0 < u /\ 2 * q * D <= u).
  assert (Th : forall u, P u -> 0 <= q * D / u <= / 2).
  { intros u [Hu L]. split.
    - apply Rmult_le_pos; [apply Rmult_le_pos; lra|left; apply Rinv_0_lt_compat; assumption].
    - apply (Rmult_le_reg_r u); [assumption|]. replace (q * D / u * u) with (q * D) by (field; lra). lra. }
  assert (Q2 : 2 * q * D <= 1 * D) by (apply Rmult_le_compat_r; lra).
  split.
  - exists (dstep H Rc De), P. split; [|split; [|split]].
    + unfold P. assert (0 < n2) by (pose proof (pow2_ge_0 x); unfold n2; lra). split; [rpos|]. apply Rmult_le_compat_r; lra.
    + intros u [Hu _]. apply dstep_fin; lra.
    + intros u Pu. pose proof (Th u Pu) as T. destruct Pu as [Hu L]. rewrite St by assumption. set (th := q * D / u) in *.
      replace (D + th * (u - D)) with ((1 - th) * D + th * u) by ring.
      assert (0 < (1 - th) * D) by rpos. assert (0 <= th * u) by (apply Rmult_le_pos; lra).
      split; [lra|].
      assert ((1 - th) * (2 * q * D) <= (1 - th) * D) by (apply Rmult_le_compat_l; lra).
      assert (th * (2 * q * D) <= th * u) by (apply Rmult_le_compat_l; lra). lra.
    + intros u Pu. pose proof (Th u Pu) as T. destruct Pu as [Hu L]. rewrite St by assumption.
      replace (D + q * D / u * (u - D) - D) with (q * D / u * (u - D)) by ring.
      rewrite Rabs_mult, (Rabs_pos_eq (q * D / u)) by lra. apply Rmult_le_compat_r; [apply Rabs_pos|lra].
  - replace (n2 * D - D) with ((n2 - 1) * D) by ring. rewrite Rabs_mult, (Rabs_pos_eq D) by lra.
    rewrite <- (Rmult_1_l D) at 2. apply Rmult_le_compat_r; [lra|]. apply Rabs_le. lra.
Qed.

Theorem C47_diameter_converges_in_published_range :
  forall H Rc rs D max_iter tol, 1025 < rs -> 0 < D -> 0 <= tol ->
    -(3.1) <= Rc / D <= 1.5 -> kramer (rs / 1025 - 1) D Rc H ->
    exists D', value (calculate_nominal_rock_diameter_Dn50 (Fin H) (Fin Rc) (Fin rs) Ns_init_default max_iter (Fin tol)) = Ok (Fin D')
      /\ Rabs (D' - D) <= Rmax tol ((1 / 2) ^ max_iter * D).
Proof.
  intros H Rc rs D max_iter tol Hrs HD Ht Hx E. unfold Ns_init_default. rewrite diameter_value by lra.
  destruct (diameter_shrinking H Rc rs D Hrs HD Hx E) as (HDe & (F & P & P0 & St & Pi & Sh) & L0). set (De := buoyant rs 1025) in *.
  destruct (iteration_shrinks (dstep_num (Fin H) (Fin Rc) (Fin De)) F P (/ 2) D tol ltac:(lra) Ht St Pi Sh max_iter _ P0) as (r & Er & Lr).
  exists r. split; [rewrite Er; reflexivity|]. eapply Rle_trans; [exact Lr|].
  replace (/ 2 / (1 - / 2) * tol) with tol by field. apply Rle_max_compat_l.
  replace (1 / 2) with (/ 2) by lra. apply Rmult_le_compat_l; [apply pow_le; lra|exact L0].
Qed.

Lemma freeboard_shrinking :
  forall H Rc rs D, 1025 < rs -> 0 < D -> -(3.1) <= Rc / D <= 1.5 -> kramer (rs / 1025 - 1) D Rc H ->
    let De := buoyant rs 1025 in
    0 < De /\ shrinking (rstep_num (Fin H) (Fin D) (Fin De)) (- (1) * D) Rc 0.81 /\ Rabs (- (1) * D - Rc) <= 2.5 * D.
Proof.
  intros H Rc rs D Hrs HD Hx E De0. unfold kramer in E. fold (buoyant rs 1025) in E.
  pose proof (De_p rs Hrs) as HDe. cbv zeta in HDe. unfold De0. clear De0. set (De := buoyant rs 1025) in *. split; [assumption|].
  set (x := Rc / D) in *. assert (ERc : Rc = x * D) by (unfold x; field; lra).
  assert (EH : H = (0.06 * x ^ 2 - 0.23 * x + 1.36) * (De * D)) by (rewrite <- E; field; lra).
  set (P := fun u => 0 <= x /\ -1 <= u / D <= x \/ x < 0 /\ u / D <= 0).
  assert (St : forall u, 0.06 * (u / D) - 0.23 <> 0 -> rstep H D De u = Rc + 0.06 * x / (0.23 - 0.06 * (u / D)) * (u - Rc)).
  { intros u Hu. unfold rstep. rewrite EH, ERc. field.
    assert (0.06 * u - 0.23 * D <> 0).
    { intros Z. apply Hu. apply (Rmult_eq_reg_r D); [|lra]. replace ((0.06 * (u / D) - 0.23) * D) with (0.06 * u - 0.23 * D) by (field; lra). lra. }
    repeat split; lra. }
  assert (Nz : forall u, P u -> 0.14 <= 0.23 - 0.06 * (u / D)) by (intros u [[? ?]|[? ?]]; lra).
  assert (Th : forall u, P u -> Rabs (0.06 * x / (0.23 - 0.06 * (u / D))) <= 0.81).
  { intros u Pu. pose proof (Nz u Pu). set (w := 0.23 - 0.06 * (u / D)) in *.
    assert (Lw : Rabs (0.06 * x) <= 0.81 * w).
    { destruct Pu as [[? [? ?]]|[? ?]]; [rewrite Rabs_pos_eq; unfold w in *; lra|rewrite Rabs_left; unfold w in *; lra]. }
    unfold Rdiv. rewrite Rabs_mult, Rabs_inv, (Rabs_pos_eq w) by lra.
    apply (Rmult_le_reg_r w); [lra|]. rewrite Rmult_assoc, Rinv_l by lra. lra. }
  split.
  - exists (rstep H D De), P. split; [|split; [|split]].
    + unfold P. replace (- (1) * D / D) with (-1) by (field; lra). destruct (Rle_or_lt 0 x); [left|right]; lra.
    + intros u Pu. pose proof (Nz u Pu). apply rstep_fin; lra.
    + intros u Pu. pose proof (Nz u Pu) as N. pose proof (Th u Pu) as T. rewrite St by lra.
      assert (EE : (Rc + 0.06 * x / (0.23 - 0.06 * (u / D)) * (u - Rc)) / D = x + 0.06 * x / (0.23 - 0.06 * (u / D)) * (u / D - x)).
      { rewrite ERc. field. split; [lra|]. intros Z.
        assert (0.23 - 0.06 * (u / D) = 0). { apply (Rmult_eq_reg_r D); [|lra]. replace ((0.23 - 0.06 * (u / D)) * D) with (0.23 * D - 0.06 * u) by (field; lra). lra. } lra. }
      unfold P in Pu |- *. rewrite EE. set (v := u / D) in *. set (w := 0.23 - 0.06 * v) in *.
      destruct Pu as [[Hx0 [V1 V2]]|[Hx0 V]].
      * left. split; [assumption|]. assert (0 <= 0.06 * x / w) by (apply Rmult_le_pos; [lra|left; apply Rinv_0_lt_compat; lra]).
        rewrite Rabs_pos_eq in T by assumption. set (th := 0.06 * x / w) in *.
        assert (0 <= th * (x - v)) by (apply Rmult_le_pos; lra).
        assert (th * (x - v) <= 1 * (x - v)) by (apply Rmult_le_compat_r; lra). lra.
      * right. split; [assumption|].
        replace (x + 0.06 * x / w * (v - x)) with (x * (w + 0.06 * (v - x)) / w) by (field; lra).
        assert (0 < w + 0.06 * (v - x)) by (unfold w; lra). 
        assert (0 < (- x) * (w + 0.06 * (v - x)) / w) by rpos. lra.
    + intros u Pu. pose proof (Nz u Pu) as N. pose proof (Th u Pu) as T. rewrite St by lra.
      replace (Rc + 0.06 * x / (0.23 - 0.06 * (u / D)) * (u - Rc) - Rc) with (0.06 * x / (0.23 - 0.06 * (u / D)) * (u - Rc)) by ring.
      rewrite Rabs_mult. apply Rmult_le_compat_r; [apply Rabs_pos|assumption].
  - rewrite ERc. replace (- (1) * D - x * D) with (- ((1 + x) * D)) by ring. rewrite Rabs_Ropp, Rabs_mult, (Rabs_pos_eq D) by lra.
    apply Rmult_le_compat_r; [lra|]. apply Rabs_le. lra.
Qed.

Theorem C47_freeboard_converges_in_published_range :
  forall H Rc rs D m50 max_iter tol, 1025 < rs -> 0 < D -> 0 <= tol ->
    -(3.1) <= Rc / D <= 1.5 -> kramer (rs / 1025 - 1) D Rc H ->
    exists Rc', value (calculate_crest_freeboard_Rc (Fin H) (Fin rs) (Fin D) m50 Rc_Dn50_init_default max_iter (Fin tol)) = Ok (Fin Rc')
      /\ Rabs (Rc' - Rc) <= Rmax (5 * tol) (0.81 ^ max_iter * (2.5 * D)).
Proof.
  intros H Rc rs D m50 max_iter tol Hrs HD Ht Hx E. unfold Rc_Dn50_init_default. rewrite nneg_fin, freeboard_value by lra.
  destruct (freeboard_shrinking H Rc rs D Hrs HD Hx E) as (HDe & (F & P & P0 & St & Pi & Sh) & L0). set (De := buoyant rs 1025) in *.
  destruct (iteration_shrinks (rstep_num (Fin H) (Fin D) (Fin De)) F P 0.81 Rc tol ltac:(lra) Ht St Pi Sh max_iter _ P0) as (r & Er & Lr).
  exists r. split; [rewrite Er; reflexivity|]. eapply Rle_trans; [exact Lr|].
  apply Rmax_case.
  - eapply Rle_trans; [|apply Rmax_l]. apply Rmult_le_compat_r; lra.
  - eapply Rle_trans; [|apply Rmax_r]. apply Rmult_le_compat_l; [apply pow_le; lra|exact L0].
Qed.

(** With all defaults the error is at most 1e-5 m in the diameter and 5e-5 m in
    the freeboard, for diameters up to a kilometre. *)
Theorem C47_default_accuracy :
  forall H Rc rs D m50, 1025 < rs -> 0 < D <= 1000 -> -(3.1) <= Rc / D <= 1.5 -> kramer (rs / 1025 - 1) D Rc H ->
    (exists D', value (calculate_nominal_rock_diameter_Dn50 (Fin H) (Fin Rc) (Fin rs) Ns_init_default max_iter_default tolerance_default)
                = Ok (Fin D') /\ Rabs (D' - D) <= 0.00001)
    /\ (exists Rc', value (calculate_crest_freeboard_Rc (Fin H) (Fin rs) (Fin D) m50 Rc_Dn50_init_default max_iter_default tolerance_default)
                = Ok (Fin Rc') /\ Rabs (Rc' - Rc) <= 0.00005).
Proof.
  intros H Rc rs D m50 Hrs HD Hx E.
  assert (P1 : (1 / 2) ^ 1000 <= 0.00000001).
  { replace 1000%nat with (27 + 973)%nat by reflexivity. rewrite pow_add.
    assert ((1 / 2) ^ 973 <= 1) by (rewrite <- (pow1 973); apply pow_incr; lra).
    assert (0 <= (1 / 2) ^ 973) by (apply pow_le; lra). cbn [pow]. 
    match goal with |- ?a * ?b <= _ => apply (Rle_trans _ (a * 1)) end; [apply Rmult_le_compat_l; cbn [pow]; lra|cbn [pow]; lra]. }
  assert (P2 : 0.81 ^ 1000 <= 0.00000001).
  { replace 1000%nat with (4 * 250)%nat by reflexivity. rewrite pow_mult.
    apply (Rle_trans _ ((1 / 2) ^ 250)); [apply pow_incr; cbn [pow]; lra|].
    replace 250%nat with (27 + 223)%nat by reflexivity. rewrite pow_add.
    assert ((1 / 2) ^ 223 <= 1) by (rewrite <- (pow1 223); apply pow_incr; lra).
    assert (0 <= (1 / 2) ^ 223) by (apply pow_le; lra).
    match goal with |- ?a * ?b <= _ => apply (Rle_trans _ (a * 1)) end; [apply Rmult_le_compat_l; cbn [pow]; lra|cbn [pow]; lra]. }
  assert (0 <= (1 / 2) ^ 1000) by (apply pow_le; lra). assert (0 <= 0.81 ^ 1000) by (apply pow_le; lra).
  split.
  - destruct (C47_diameter_converges_in_published_range H Rc rs D max_iter_default 0.00001) as (D' & V & L); try assumption; try lra.
    exists D'. split; [exact V|]. eapply Rle_trans; [exact L|]. unfold max_iter_default.
    apply Rmax_case; [lra|]. apply (Rle_trans _ (0.00000001 * 1000)); [|lra]. apply Rmult_le_compat; lra.
  - destruct (C47_freeboard_converges_in_published_range H Rc rs D m50 max_iter_default 0.00001) as (D' & V & L); try assumption; try lra.
    exists D'. split; [exact V|]. eapply Rle_trans; [exact L|]. unfold max_iter_default.
    apply Rmax_case; [lra|]. apply (Rle_trans _ (0.00000001 * 2500)); [|lra]. apply Rmult_le_compat; lra.
Qed.

(** ** Outside that range *)

(** The relation has a positive diameter for a given freeboard and wave height
    only if H/Delta + 0.23 Rc is at least twice the square root of
    1.36 * 0.06 Rc². Below that bound the loop never settles. *)
Theorem C47_no_diameter_no_settling :
  forall H Rc rs Ns tol, 1025 < rs -> Ns <> 0 -> 0 <= tol ->
    let De := rs / 1025 - 1 in
    Rabs (H / De + 0.23 * Rc) + 1.36 * tol < 2 * sqrt (1.36 * 0.06 * Rc ^ 2) ->
    (forall D, 0 < D -> ~ kramer De D Rc H)
    /\ forall max_iter D,
       value (calculate_nominal_rock_diameter_Dn50 (Fin H) (Fin Rc) (Fin rs) (Fin Ns) max_iter (Fin tol)) = Ok (Fin D) ->
       value (calculate_nominal_rock_diameter_Dn50 (Fin H) (Fin Rc) (Fin rs) (Fin Ns) (S max_iter) (Fin tol)) <> Ok (Fin D).
Proof.
  intros H Rc rs Ns tol Hrs HN Ht De0 L. pose proof (De_p rs Hrs) as HDe. cbv zeta in HDe.
  change De0 with (buoyant rs 1025) in *. clear De0. set (De := buoyant rs 1025) in *.
  assert (Key : forall d, d <> 0 -> tol < Rabs (dstep H Rc De d - d)).
  { intros d Hd. set (A := H / De + 0.23 * Rc) in *. set (B := 1.36 * 0.06 * Rc ^ 2) in *.
    assert (HB : 0 <= B) by (unfold B; pose proof (pow2_ge_0 Rc); lra).
    assert (Eq : 1.36 * (dstep H Rc De d - d) = A - (1.36 * d + B / (1.36 * d))).
    { unfold dstep, A, B. field. split; lra. }
    assert (Am : 2 * sqrt B <= Rabs (1.36 * d + B / (1.36 * d))).
    { set (u := 1.36 * d). assert (Hu : u <> 0) by (unfold u; lra).
      pose proof (sqrt_pos B) as S0. pose proof (sqrt_sqrt B HB) as SS.
      destruct (Rlt_or_le 0 u) as [U|U].
      - rewrite Rabs_pos_eq.
        + apply (Rmult_le_reg_r u); [assumption|]. replace ((u + B / u) * u) with (u * u + B) by (field; lra).
          pose proof (pow2_ge_0 (u - sqrt B)). lra.
        + assert (0 <= B / u) by (apply Rmult_le_pos; [lra|left; apply Rinv_0_lt_compat; assumption]). lra.
      - assert (U' : u < 0) by lra. rewrite <- Rabs_Ropp, Rabs_pos_eq.
        + apply (Rmult_le_reg_r (- u)); [lra|]. replace (- (u + B / u) * - u) with (u * u + B) by (field; lra).
          pose proof (pow2_ge_0 (u + sqrt B)). lra.
        + replace (- (u + B / u)) with (- u + B / (- u)) by (field; lra).
          assert (0 <= B / (- u)) by (apply Rmult_le_pos; [lra|left; apply Rinv_0_lt_compat; lra]). lra. }
    assert (T : Rabs (1.36 * d + B / (1.36 * d)) <= Rabs A + Rabs (1.36 * (dstep H Rc De d - d))).
    { rewrite Eq. set (v := 1.36 * d + B / (1.36 * d)). rewrite (Rabs_minus_sym A v).
      replace v with (A + (v - A)) at 1 by ring. apply Rabs_triang. }
    rewrite (Rabs_mult 1.36), (Rabs_pos_eq 1.36) in T by lra. lra. }
  split.
  - intros D HD E. unfold kramer in E. specialize (Key D ltac:(lra)).
    assert (F : dstep H Rc De D = D).
    { assert (EH : H = (0.06 * (Rc / D) ^ 2 - 0.23 * (Rc / D) + 1.36) * (De * D)) by (rewrite <- E; field; lra).
      unfold dstep. rewrite EH. field. lra. }
    rewrite F in Key. replace (D - D) with 0 in Key by ring. rewrite Rabs_R0 in Key. lra.
  - intros max_iter D. rewrite !diameter_value by assumption. fold De. intros E E'.
    assert (E1 : iteration (dstep_num (Fin H) (Fin Rc) (Fin De)) (Fin tol) max_iter (Fin (H / (De * Ns))) PInf PInf = Fin D) by congruence.
    assert (E2 : iteration (dstep_num (Fin H) (Fin Rc) (Fin De)) (Fin tol) (S max_iter) (Fin (H / (De * Ns))) PInf PInf = Fin D) by congruence.
    destruct (settled _ tol D Ht _ _ _ _ (start_state _ _ _) E1 E2) as (y & Ey & G).
    apply (dstep_back _ _ _ _ _ tol) in Ey; [|lra|exact G]. destruct Ey as (d & -> & Hd & -> & Ld).
    specialize (Key d Hd). lra.
Qed.

(** *** Silent non-convergence with all defaults *)
Section Cycle.
Let phi := (1 + sqrt 5) / 2.
Let kap := sqrt (3 / 68).
Lemma phi_eq : phi * phi = phi + 1.
Proof. unfold phi. pose proof (sqrt_sqrt 5 ltac:(lra)). lra. Qed.
Lemma phi_bounds : 1.618 < phi < 1.6181.
Proof.
  unfold phi. pose proof (sqrt_sqrt 5 ltac:(lra)) as S. pose proof (sqrt_pos 5). split.
  - destruct (Rlt_or_le 2.236 (sqrt 5)); [lra|]. exfalso.
    assert (sqrt 5 * sqrt 5 <= 2.236 * 2.236) by (apply Rmult_le_compat; lra). lra.
  - destruct (Rlt_or_le (sqrt 5) 2.2362); [lra|]. exfalso.
    assert (2.2362 * 2.2362 <= sqrt 5 * sqrt 5) by (apply Rmult_le_compat; lra). lra.
Qed.
Lemma kap_eq : kap * kap = 3 / 68.
Proof. apply sqrt_sqrt. lra. Qed.
Lemma kap_bounds : 0.21 < kap < 0.2101.
Proof.
  pose proof kap_eq as S. pose proof (sqrt_pos (3 / 68)) as P. fold kap in P. split.
  - destruct (Rlt_or_le 0.21 kap); [lra|]. exfalso. assert (kap * kap <= 0.21 * 0.21) by (apply Rmult_le_compat; lra). lra.
  - destruct (Rlt_or_le kap 0.2101); [lra|]. exfalso. assert (0.2101 * 0.2101 <= kap * kap) by (apply Rmult_le_compat; lra). lra.
Qed.
Let H := 0.23 + 1.36 * phi * kap.
Let F := dstep H (-1) 1.
Let u := H / 2 / kap.
Let x0 := kap * u.
Let x1 := kap * (phi - 1 / u).
Let x2 := kap * (phi * (u - 1) / (phi * u - 1)).
Let x3 := kap * ((u - phi) / (phi * (u - 1))).
Let x4 := kap * (1 / (phi - u)).

Lemma u_bounds : 1.64 < u < 1.652.
Proof.
  pose proof phi_bounds. pose proof kap_bounds. unfold u, H.
  assert (E : (0.23 + 1.36 * phi * kap) / 2 / kap = 0.115 * / kap + 0.68 * phi) by (rfield; lra).
  rewrite E. assert (4.759 < / kap).
  { apply (Rmult_lt_reg_r kap); [lra|]. rewrite Rinv_l by lra. lra. }
  assert (/ kap < 4.762).
  { apply (Rmult_lt_reg_r kap); [lra|]. rewrite Rinv_l by lra. lra. }
  lra.
Qed.

Lemma F_scaled v : v <> 0 -> F (kap * v) = kap * (phi - 1 / v).
Proof.
  intros Hv. unfold F, dstep, H. pose proof kap_bounds. pose proof kap_eq as K.
  replace (-1 * (0.06 * (-1 / (kap * v)) - 0.23)) with (0.06 / (kap * v) + 0.23) by (field; lra).
  assert (K' : 0.06 / (kap * v) = 1.36 * kap / v).
  { apply (Rmult_eq_reg_r (kap * v)); [|apply Rmult_integral_contrapositive_currified; lra].
    replace (0.06 / (kap * v) * (kap * v)) with 0.06 by (field; lra).
    replace (1.36 * kap / v * (kap * v)) with (1.36 * (kap * kap)) by (field; lra). lra. }
  rewrite K'. field. lra.
Qed.

Lemma c1 : F x0 = x1. Proof. apply F_scaled. pose proof u_bounds. lra. Qed.
Lemma phi_u : 1.65 < phi * u.
Proof.
  pose proof u_bounds. pose proof phi_bounds. assert (1.618 * 1.64 <= phi * u) by (apply Rmult_le_compat; lra). lra.
Qed.
Lemma c2 : F x1 = x2.
Proof.
  pose proof u_bounds. pose proof phi_bounds. pose proof phi_eq as P. pose proof phi_u.
  unfold x1. rewrite F_scaled.
  - unfold x2. f_equal. replace (phi - 1 / u) with ((phi * u - 1) / u) by (field; lra).
    apply (Rmult_eq_reg_r (phi * u - 1)); [|lra].
    replace ((phi - 1 / ((phi * u - 1) / u)) * (phi * u - 1)) with (phi * phi * u - phi - u) by (field; lra).
    replace (phi * (u - 1) / (phi * u - 1) * (phi * u - 1)) with (phi * (u - 1)) by (field; lra). rewrite P. ring.
  - assert (1 / u < 0.7). { apply (Rmult_lt_reg_r u); [lra|]. replace (1 / u * u) with 1 by (field; lra). lra. } lra.
Qed.
Lemma c3 : F x2 = x3.
Proof.
  pose proof u_bounds. pose proof phi_bounds. pose proof phi_eq as P. pose proof phi_u.
  unfold x2. rewrite F_scaled.
  - unfold x3. f_equal. apply (Rmult_eq_reg_r (phi * (u - 1))); [|apply Rmult_integral_contrapositive_currified; lra].
    replace ((u - phi) / (phi * (u - 1)) * (phi * (u - 1))) with (u - phi) by (field; lra).
    replace ((phi - 1 / (phi * (u - 1) / (phi * u - 1))) * (phi * (u - 1))) with (phi * phi * (u - 1) - (phi * u - 1)) by (field; repeat split; lra).
    rewrite P. ring.
  - apply Rmult_integral_contrapositive_currified; [apply Rmult_integral_contrapositive_currified; lra|].
    apply Rinv_neq_0_compat. lra.
Qed.
Lemma c4 : F x3 = x4.
Proof.
  pose proof u_bounds. pose proof phi_bounds. pose proof phi_eq as P. pose proof phi_u.
  unfold x3. rewrite F_scaled.
  - unfold x4. f_equal. apply (Rmult_eq_reg_r (phi - u)); [|lra].
    replace (1 / (phi - u) * (phi - u)) with 1 by (field; lra).
    replace ((phi - 1 / ((u - phi) / (phi * (u - 1)))) * (phi - u)) with (phi * phi - phi) by (field; repeat split; lra).
    rewrite P. ring.
  - apply Rmult_integral_contrapositive_currified; [lra|]. apply Rinv_neq_0_compat.
    apply Rmult_integral_contrapositive_currified; lra.
Qed.
Lemma c5 : F x4 = x0.
Proof.
  pose proof u_bounds. pose proof phi_bounds. unfold x4. rewrite F_scaled.
  - unfold x0. f_equal. field. lra.
  - apply Rmult_integral_contrapositive_currified; [lra|]. apply Rinv_neq_0_compat. lra.
Qed.

Lemma recip_lt a b : 0 < b -> 1 < a * b -> 1 / b < a.
Proof. intros Hb L. apply (Rmult_lt_reg_r b); [assumption|]. replace (1 / b * b) with 1 by (field; lra). assumption. Qed.
Lemma recip_gt a b : 0 < b -> a * b < 1 -> a < 1 / b.
Proof. intros Hb L. apply (Rmult_lt_reg_r b); [assumption|]. replace (1 / b * b) with 1 by (field; lra). assumption. Qed.

(** Consecutive members differ by more than the tolerance. *)
Lemma gaps : 0.05 < x0 - x1 /\ 0.05 < x1 - x2 /\ 0.05 < x2 - x3 /\ 0.05 < x3 - x4 /\ 0 < x3 /\ x4 < 0.
Proof.
  pose proof u_bounds as U. pose proof phi_bounds as Pb. pose proof kap_bounds as Kb. pose proof phi_eq as P. pose proof phi_u as PU.
  assert (PU2 : phi * u < 2.674).
  { assert (phi * u <= 1.6181 * 1.652) by (apply Rmult_le_compat; lra). lra. }
  assert (PU1 : 2.653 < phi * u).
  { assert (1.618 * 1.64 <= phi * u) by (apply Rmult_le_compat; lra). lra. }
  set (y0 := u). set (y1 := phi - 1 / u). set (y2 := phi * (u - 1) / (phi * u - 1)).
  set (y3 := (u - phi) / (phi * (u - 1))). set (y4 := 1 / (phi - u)).
  assert (B1 : 1.007 < y1 < 1.015).
  { unfold y1. assert (1 / u < 0.61) by (apply recip_lt; lra). assert (0.604 < 1 / u) by (apply recip_gt; lra). lra. }
  assert (B2 : 0.6 < y2 < 0.66).
  { unfold y2. split.
    - apply (Rmult_lt_reg_r (phi * u - 1)); [lra|]. unfold Rdiv. rewrite Rmult_assoc, Rinv_l by lra. lra.
    - apply (Rmult_lt_reg_r (phi * u - 1)); [lra|]. unfold Rdiv. rewrite Rmult_assoc, Rinv_l by lra. lra. }
  assert (B3 : 0 < y3 < 0.05).
  { assert (W : 1 < phi * (u - 1)) by lra. unfold y3. split.
    - apply Rmult_lt_0_compat; [lra|]. apply Rinv_0_lt_compat. lra.
    - apply (Rmult_lt_reg_r (phi * (u - 1))); [lra|]. unfold Rdiv. rewrite Rmult_assoc, Rinv_l by lra. lra. }
  assert (B4 : y4 < -29).
  { unfold y4. replace (1 / (phi - u)) with (- (1 / (u - phi))) by (field; lra).
    assert (29 < 1 / (u - phi)) by (apply recip_gt; lra). lra. }
  assert (G : forall a b, 0.3 < a - b -> 0.05 < kap * a - kap * b).
  { intros a b L. replace (kap * a - kap * b) with (kap * (a - b)) by ring.
    assert (0.21 * 0.3 <= kap * (a - b)) by (apply Rmult_le_compat; lra). lra. }
  unfold x0, x1, x2, x3, x4. fold y1 y2 y3 y4.
  split; [apply G; unfold y0; lra|]. split; [apply G; lra|]. split; [apply G; lra|]. split; [apply G; lra|].
  assert (0 < kap * y3) by rpos. assert (0 < kap * - y4) by rpos. lra.
Qed.

Lemma H_bounds : 0.69 < H < 0.693.
Proof.
  pose proof phi_bounds. pose proof kap_bounds. unfold H.
  assert (1.618 * 0.21 <= phi * kap) by (apply Rmult_le_compat; lra).
  assert (phi * kap <= 1.6181 * 0.2101) by (apply Rmult_le_compat; lra). lra.
Qed.
Lemma x0_eq : x0 = H / 2.
Proof. unfold x0, u. pose proof kap_bounds. field. lra. Qed.

Let st := dstep_num (Fin H) (Fin (-1)) (Fin 1).
Lemma st_fin x : x <> 0 -> st (Fin x) = Fin (F x).
Proof. intros. apply dstep_fin; lra. Qed.

Lemma cycle_round n d :  0.00001 < d ->
  iteration st (Fin 0.00001) (S (S (S (S n)))) (Fin x1) (Fin x1) (Fin d)
  = iteration st (Fin 0.00001) n (Fin x0) (Fin x0) (Fin (x0 - x4)).
Proof.
  destruct gaps as (G1 & G2 & G3 & G4 & P3 & P4). intros Hd.
  cbn [iteration].
  rewrite ngt_fin, Rltb_true by lra. rewrite st_fin, c2 by lra. nfin. rewrite Rabs_left, Rltb_true by lra.
  rewrite st_fin, c3 by lra. nfin. rewrite Rabs_left, Rltb_true by lra.
  rewrite st_fin, c4 by lra. nfin. rewrite Rabs_left, Rltb_true by lra.
  rewrite st_fin, c5 by lra. nfin. rewrite Rabs_pos_eq by lra. reflexivity.
Qed.

Lemma cycle_value : forall k d, 0.00001 < d ->
  iteration st (Fin 0.00001) (5 * k) (Fin x0) (Fin x0) (Fin d) = Fin x0.
Proof.
  destruct gaps as (G1 & G2 & G3 & G4 & P3 & P4).
  induction k; intros d Hd.
  - change (5 * 0)%nat with 0%nat. cbn [iteration]. destruct (ngt (Fin d) (Fin 0.00001)); reflexivity.
  - replace (5 * S k)%nat with (S (S (S (S (S (5 * k))))))%nat by lia.
    change (iteration st (Fin 0.00001) (S (S (S (S (S (5 * k))))))%nat (Fin x0) (Fin x0) (Fin d)) with
      (if ngt (Fin d) (Fin 0.00001) then iteration st (Fin 0.00001) (S (S (S (S (5 * k)))))%nat (st (Fin x0)) (st (Fin x0)) (nabs (st (Fin x0) - Fin x0)%num) else Fin x0).
    rewrite ngt_fin, Rltb_true by assumption. rewrite st_fin, c1 by lra. nfin.
    rewrite cycle_round by (rewrite Rabs_left; lra). apply IHk. lra.
Qed.

Lemma cycle_start : iteration st (Fin 0.00001) 1000 (Fin (H / 2)) PInf PInf = Fin (H / 2).
Proof.
  destruct gaps as (G1 & G2 & G3 & G4 & P3 & P4). rewrite <- x0_eq.
  replace 1000%nat with (S (S (S (S (S (5 * 199))))))%nat by reflexivity.
  change (iteration st (Fin 0.00001) (S (S (S (S (S (5 * 199))))))%nat (Fin x0) PInf PInf) with
    (iteration st (Fin 0.00001) (S (S (S (S (5 * 199)))))%nat (st (Fin x0)) (st (Fin x0)) (nabs (st (Fin x0) - PInf)%num)).
  rewrite st_fin, c1 by lra. change (nabs (Fin x1 - PInf)%num) with PInf.
  transitivity (iteration st (Fin 0.00001) (S (S (S (S (5 * 199)))))%nat (Fin x1) (Fin x1) (Fin 1)).
  - cbn [iteration]. change (ngt PInf (Fin 0.00001)) with true. rewrite (ngt_fin 1), Rltb_true by lra. reflexivity.
  - rewrite cycle_round by lra. apply cycle_value. lra.
Qed.

Lemma silent_failure : exists H D H',
  0 < D /\ warns (calculate_nominal_rock_diameter_Dn50 (Fin H) (Fin (-1)) (Fin 2050) Ns_init_default max_iter_default tolerance_default) = []
    /\ value (calculate_nominal_rock_diameter_Dn50 (Fin H) (Fin (-1)) (Fin 2050) Ns_init_default max_iter_default tolerance_default) = Ok (Fin D)
  /\ value (calculate_significant_wave_height_Hs (Fin (-1)) (Fin 2050) (Fin D) NaN) = Ok (Fin H')
  /\ 1.2 * H < H' /\ forall D0, 0 < D0 -> ~ kramer 1 D0 (-1) H.
Proof.
  pose proof H_bounds as HB. pose proof kap_bounds as KB. pose proof phi_bounds as PB.
  exists H, (H / 2). eexists. split; [lra|].
  assert (It : iteration (dstep_num (Fin H) (Fin (-1)) (Fin (buoyant 2050 1025))) (Fin 0.00001) 1000
     (Fin H / (Fin (buoyant 2050 1025) * Fin 2))%num PInf PInf = Fin (H / 2)).
  { unfold buoyant. replace (2050 / 1025 - 1) with 1 by lra. rewrite nmul_fin, ndiv_fin by lra.
    replace (H / (1 * 2)) with (H / 2) by lra. apply cycle_start. }
  split; [|split; [|split; [apply height_value; lra|split]]].
  - unfold calculate_nominal_rock_diameter_Dn50, Ns_init_default, max_iter_default, tolerance_default.
    rewrite Delta_fin by lra. fold (dstep_num (Fin H) (Fin (-1)) (Fin (buoyant 2050 1025))). rewrite It.
    rewrite warns_bind. unfold check_validity_range. cbn [provided isnan negb andb when].
    rewrite warns_check, value_check. rewrite ndiv_fin by lra. nfin.
    assert (B : -2.9 < -1 / (H / 2) < -2.8).
    { replace (-1 / (H / 2)) with (- (2 * (1 / H))) by (field; lra).
      assert (1 / H < 1.4493) by (apply recip_lt; lra). assert (1.442 < 1 / H) by (apply recip_gt; lra). lra. }
    rewrite !Rltb_false by lra. reflexivity.
  - unfold Ns_init_default, max_iter_default, tolerance_default. unfold calculate_nominal_rock_diameter_Dn50. 
    mval. rewrite checks_kb. mval. rewrite Delta_fin by lra.
    fold (dstep_num (Fin H) (Fin (-1)) (Fin (buoyant 2050 1025))). rewrite It. reflexivity.
  - unfold buoyant. set (y := -1 / (H / 2)).
    assert (B : -2.9 < y < -2.8).
    { unfold y. replace (-1 / (H / 2)) with (- (2 * (1 / H))) by (field; lra).
      assert (1 / H < 1.4493) by (apply recip_lt; lra). assert (1.442 < 1 / H) by (apply recip_gt; lra). lra. }
    assert (2.8 * 2.8 <= (- y) * (- y)) by (apply Rmult_le_compat; lra).
    replace ((0.06 * y ^ 2 - 0.23 * y + 1.36) * (2050 / 1025 - 1) * (H / 2)) with ((0.06 * (- y * - y) - 0.23 * y + 1.36) * (H / 2)) by (simpl; field).
    apply (Rlt_le_trans _ (2.47 * (H / 2))); [|apply Rmult_le_compat_r]; lra.
  - assert (Ds : 2050 / 1025 - 1 = 1) by lra.
    destruct (C47_no_diameter_no_settling H (-1) 2050 2 0) as [N _]; try lra.
    + rewrite Ds. set (S0 := sqrt (1.36 * 0.06 * (-1) ^ 2)).
      assert (Sq : S0 * S0 = 0.0816) by (unfold S0; rewrite sqrt_sqrt; lra).
      assert (Sp : 0 <= S0) by apply sqrt_pos.
      assert (0.28 < S0). { destruct (Rlt_or_le 0.28 S0); [assumption|]. assert (S0 * S0 <= 0.28 * 0.28) by (apply Rmult_le_compat; lra). lra. }
      rewrite Rabs_pos_eq; lra.
    + intros D0 HD0. rewrite <- Ds. apply N. assumption.
Qed.
End Cycle.

(** There are inputs for which no diameter satisfies the relation, and the
    function with its default settings returns, without any warning, a diameter
    for which the admissible wave height is more than 20% off the given one. *)
Theorem C47_default_diameter_satisfies_relation_refuted :
  exists H D H',
    0 < D /\ warns (calculate_nominal_rock_diameter_Dn50 (Fin H) (Fin (-1)) (Fin 2050) Ns_init_default max_iter_default tolerance_default) = []
    /\ value (calculate_nominal_rock_diameter_Dn50 (Fin H) (Fin (-1)) (Fin 2050) Ns_init_default max_iter_default tolerance_default) = Ok (Fin D)
    /\ value (calculate_significant_wave_height_Hs (Fin (-1)) (Fin 2050) (Fin D) NaN) = Ok (Fin H')
    /\ 1.2 * H < H' /\ forall D0, 0 < D0 -> ~ kramer 1 D0 (-1) H.
Proof. exact silent_failure. Qed.

(** Two different diameters can satisfy the relation for the same freeboard and
    wave height; the iteration picks the larger. *)
Theorem C47_diameter_unique_refuted :
  exists De Rc H D D', 0 < De /\ 0 < D < D' /\ kramer De D Rc H /\ kramer De D' Rc H.
Proof.
  exists 1, (-34), 35.02, 3, 17. unfold kramer. repeat split; lra.
Qed.

Example C47_example :
  let H := (0.06 * (-1) ^ 2 - 0.23 * -1 + 1.36) * (2650 / 1025 - 1) in
  exists D', value (calculate_nominal_rock_diameter_Dn50 (Fin H) (Fin (-1)) (Fin 2650) Ns_init_default max_iter_default tolerance_default)
             = Ok (Fin D') /\ Rabs (D' - 1) <= 0.00001.
Proof.
  intros H. apply (C47_default_accuracy H (-1) 2650 1 NaN); try lra. unfold kramer, H. field.
Qed.
