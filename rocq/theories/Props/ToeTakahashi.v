(** Property C55: Takahashi et al. (1990), toe of a caisson. *)
From Coq Require Import Reals Lra Lia List Bool String ZArith.
From Verif.Lib Require Import Num Monad RTac NTac.
From Verif.Spec Require Import Waves Toe Dispersion.
From Verif.Model Require Import CoreUtility CorePhysics Takahashi1990.
From Verif.Proofs Require Import Core CheckTac Dispersion.
Import ListNotations.
Open Scope R_scope.

Lemma checks a b : value (check_validity a b) = Ok tt.
Proof. unfold check_validity. mchecks. reflexivity. Qed.

(** The stability number never raises. *)
Lemma Ns_ok d Hs Tp h B beta g :
  exists N, value (calculate_stability_number_Ns d Hs Tp h B beta g) = Ok N.
Proof. unfold calculate_stability_number_Ns. eexists. mval. rewrite checks. mval. reflexivity. Qed.

Theorem C55_stability_number_at_least_1_8 :
  forall disper Hs Tp h B beta g,
    exists N, value (calculate_stability_number_Ns disper Hs Tp h B beta g) = Ok N
      /\ (N = NaN \/ nle #1.8%num N = true).
Proof.
  intros. unfold calculate_stability_number_Ns. mval. rewrite checks. mval.
  eexists; split; [reflexivity|].
  match goal with |- context [nmax _ ?e] => generalize e end.
  intros [r| | |]; auto.
  - right. rewrite nmax_fin, nle_fin. apply Rleb_true. apply Rmax_l.
  - right. unfold nle. simpl. rewrite Reqb_true; [apply orb_true_r|reflexivity].
Qed.

Lemma sinh_2kh k h : 0 < k -> 0 < h -> 0 < 2 * k * h /\ 0 < sinh (2 * k * h).
Proof. intros. assert (0 < 2 * k * h) by rpos. split; [assumption|]. apply sinh_pos; assumption. Qed.

Lemma kappa_nonneg k h B th : 0 < k -> 0 < h -> 0 <= takahashi_kappa k h B th.
Proof.
  intros. destruct (sinh_2kh k h); try assumption. unfold takahashi_kappa.
  apply Rmult_le_pos; [rpos|].
  eapply Rle_trans; [|apply Rmax_r]. apply Rmult_le_pos; apply pow2_ge_0.
Qed.

(** The published formula; where kappa vanishes the code returns infinity. *)
Theorem C55_stability_number_is_the_published_formula :
  forall disper Hs Tp h B beta g, yields_wave_number disper ->
    0 < Hs -> 0 < Tp -> 0 < h -> 0 < g ->
    exists k, 0 < k /\ disper (Fin (2 * PI / Tp)) (Fin h) (Fin g) = Fin k /\
      let kappa := takahashi_kappa k h B (beta * (PI / 180)) in
      (0 < kappa ->
        value (calculate_stability_number_Ns disper (Fin Hs) (Fin Tp) (Fin h) (Fin B) (Fin beta) (Fin g))
        = Ok (Fin (takahashi_Ns kappa h Hs)))
      /\ (kappa = 0 ->
        value (calculate_stability_number_Ns disper (Fin Hs) (Fin Tp) (Fin h) (Fin B) (Fin beta) (Fin g))
        = Ok PInf).
Proof.
  intros * Hd HHs HT Hh Hg.
  destruct (local_wavelength_fin disper Tp h g) as (k & Hk & Ed & EL); try assumption.
  exists k. split; [assumption|]. split; [assumption|].
  destruct (sinh_2kh k h) as (P1 & P2); try assumption.
  assert (0 < PI) by rpos.
  unfold calculate_stability_number_Ns. mval. rewrite checks. mval. rewrite EL.
  unfold deg2rad. nfin.
  replace (2 * PI / (2 * PI / k)) with k by (field; split; lra).
  nfin. fold (takahashi_kappa k h B (beta * (PI / 180))).
  set (ka := takahashi_kappa k h B (beta * (PI / 180))) in *.
  cbv zeta. split; intros Hka.
  - assert (0 < Rpower ka (1 / 3)) by rpos. nfin. unfold takahashi_Ns.
    do 2 f_equal. f_equal.
    replace (1.3 * ((1 - ka) / Rpower ka (1 / 3)) * h / Hs)
      with (1.3 * ((1 - ka) / Rpower ka (1 / 3)) * (h / Hs)) by (field; split; lra).
    do 3 f_equal. ring.
  - rewrite Hka. f_equal.
    rewrite npow_0_pos by lra. nfin.
    assert (0 < h / Hs) by rpos.
    rewrite !ndiv_pos_0 by lra. rewrite nmul_pos_pinf, nmul_pinf_pos, ndiv_pinf_pos by lra.
    rewrite nmul_neg_pinf, nmul_ninf_pos by lra. cbn [nexp]. nfin. reflexivity.
Qed.

Lemma Ns_positive_case disper Hs Tp h B beta g : yields_wave_number disper ->
  0 < Hs -> 0 < Tp -> 0 < h -> 0 < g ->
  exists N, value (calculate_stability_number_Ns disper (Fin Hs) (Fin Tp) (Fin h) (Fin B) (Fin beta) (Fin g))
     = Ok N /\ nle #1.8%num N = true.
Proof.
  intros. destruct (C55_stability_number_at_least_1_8 disper (Fin Hs) (Fin Tp) (Fin h) (Fin B) (Fin beta) (Fin g))
    as (N & V & [->|L]); [exfalso|eauto].
  destruct (C55_stability_number_is_the_published_formula disper Hs Tp h B beta g)
    as (k & Hk & _ & V1 & V2); try assumption.
  destruct (kappa_nonneg k h B (beta * (PI / 180))) as [P|P]; try assumption.
  - rewrite V1 in V by assumption. discriminate.
  - rewrite V2 in V by auto. discriminate.
Qed.

(** Stone size and stability number are consistent. *)
Theorem C55_diameter_consistent :
  forall disper Hs Tp h B rs rw beta g N,
    0 < N -> 0 < Hs -> 0 < rw -> rw < rs ->
    value (calculate_stability_number_Ns disper (Fin Hs) Tp h B beta g) = Ok (Fin N) ->
    exists D, 0 < D
      /\ value (calculate_nominal_diameter_Dn50 disper (Fin Hs) Tp h B (Fin rs) (Fin rw) beta g) = Ok (Fin D)
      /\ Hs / ((rs / rw - 1) * D) = N.
Proof.
  intros * HN HHs Hrw Hrs V. unfold calculate_nominal_diameter_Dn50.
  rewrite value_bind, V. rewrite Delta_fin by lra. pose proof (buoyant_pos rs rw Hrw Hrs).
  exists (Hs / N / buoyant rs rw). repeat split.
  - rpos.
  - cbn [check_usage_stabilitynumber is_none b2n Nat.add Nat.ltb Nat.leb Nat.eqb].
    mval. cbn [fst]. nfin. reflexivity.
  - fold (buoyant rs rw). field. repeat split; lra.
Qed.

(** ** The wave-height search *)
Lemma arange_empty a d : d <> 0 -> arange (Fin a) (Fin a) (Fin d) = ret [].
Proof.
  intros. unfold arange. rewrite Reqb_false by assumption.
  replace (- ((a - a) / d)) with (IZR 0) by (field; assumption).
  rewrite Int_part_IZR. reflexivity.
Qed.

(** Whenever the lower limit 1.8 governs at the starting value, the function
    raises ValueError (minimum of an empty table) instead of returning the
    starting value, which is then the exact answer. *)
Theorem C55_wave_height_search_crashes :
  forall disper Dn50 Tp h B rs rw beta g,
    0 < Dn50 -> 0 < rw -> rw < rs ->
    value (calculate_stability_number_Ns disper (Fin (1.8 * ((rs / rw - 1) * Dn50))) Tp h B beta g)
      = Ok (Fin 1.8) ->
    value (calculate_significant_wave_height_Hs disper (Fin Dn50) Tp h B (Fin rs) (Fin rw) beta g)
      = Err ValueError.
Proof.
  intros * HD Hrw Hrs V. unfold calculate_significant_wave_height_Hs.
  pose proof (buoyant_pos rs rw Hrw Hrs). rewrite Delta_fin by lra. fold (buoyant rs rw) in V.
  cbn [check_usage_stabilitynumber is_none b2n Nat.add Nat.ltb Nat.leb Nat.eqb].
  rewrite value_bind. mval. cbn [fst].
  nfin. replace (Dn50 * buoyant rs rw * 1.8) with (1.8 * (buoyant rs rw * Dn50)) by ring.
  rewrite V. mval. cbn [fst]. nfin.
  replace (Dn50 * buoyant rs rw * 1.8) with (1.8 * (buoyant rs rw * Dn50)) by ring.
  assert (0 < 1.8 * (buoyant rs rw * Dn50)) by rpos.
  nfin. rewrite Rmin_left, Rmax_left by lra. rewrite arange_empty by rpos.
  mval. cbn [table_out]. mval. reflexivity.
Qed.

Lemma table_out_ok d D De Tp h B beta g tab :
  exists out, value (table_out d D De Tp h B beta g tab) = Ok out
    /\ forall i y, nth_error out i = Some y ->
         exists x N, nth_error tab i = Some x
           /\ value (calculate_stability_number_Ns d x Tp h B beta g) = Ok N /\ y = (D * De * N)%num.
Proof.
  induction tab as [|x tab (out & V & P)].
  - exists []. split; [reflexivity|]. intros [|i] y E; discriminate.
  - destruct (Ns_ok d x Tp h B beta g) as (N & VN).
    exists ((D * De * N)%num :: out). split.
    + cbn [table_out]. rewrite value_bind, VN.
      cbn [check_usage_stabilitynumber is_none b2n Nat.add Nat.ltb Nat.leb Nat.eqb].
      mval. rewrite V. reflexivity.
    + intros [|i] y E; [|apply (P i); exact E].
      injection E as <-. exists x, N. auto.
Qed.

Lemma value_py_index l i x : value (py_index l (Z.of_nat i)) = Ok x -> nth_error l i = Some x.
Proof.
  unfold py_index.
  replace (Z.of_nat i <? 0)%Z with false by (symmetry; apply Z.ltb_ge; lia).
  replace (Z.of_nat i <? 0)%Z with false by (symmetry; apply Z.ltb_ge; lia).
  rewrite Nat2Z.id. destruct (nth_error l i); [|discriminate]. intros E. injection E as ->. reflexivity.
Qed.

Tactic Notation "step" hyp(V) ident(x) ident(E) :=
  rewrite value_bind in V;
  match type of V with
  | match value ?m with Ok _ => _ | Err _ => _ end = _ =>
      destruct (value m) as [x|] eqn:E; [|discriminate V]; cbv beta in V
  end.

(** Whatever the search returns is the wave height implied by the stability
    number of some trial height; without the precision warning that trial
    height is within 1 mm. *)
Theorem C55_wave_height_residual :
  forall disper Dn50 Tp h B rs rw beta g y,
    value (calculate_significant_wave_height_Hs disper Dn50 Tp h B rs rw beta g) = Ok y ->
    exists x N,
      value (calculate_stability_number_Ns disper x Tp h B beta g) = Ok N
      /\ y = (Dn50 * calculate_buoyant_density_Delta rs rw * N)%num
      /\ (nlt (nabs (x - y)) #0.001 = true
          \/ In (WText "Hs precision is not better than")
               (warns (calculate_significant_wave_height_Hs disper Dn50 Tp h B rs rw beta g)))%num.
Proof.
  intros * V.
  unfold calculate_significant_wave_height_Hs in *. cbv zeta in *.
  step V r E1. step V N1 E2. step V r2 E3. step V t1 E4. step V o1 E5. step V ind E6.
  step V a1 E7. step V b1 E8. step V a2 E9. step V b2 E10. step V t2 E11. step V o2 E12.
  step V ind2 E13. step V x E14. step V y' E15. step V u E16.
  injection V as ->.
  apply value_py_index in E14, E15.
  destruct (table_out_ok disper Dn50 (calculate_buoyant_density_Delta rs rw) Tp h B beta g t2) as (out & V & P).
  rewrite V in E12. injection E12 as ->.
  destruct (P _ _ E15) as (x' & N & Ex & EN & Ey). rewrite E14 in Ex. injection Ex as <-.
  exists x, N. split; [assumption|]. split; [assumption|].
  destruct (nlt (nabs (x - y)) #0.001)%num eqn:L; [left; reflexivity|right].
  rewrite warns_bind, E1, in_app_iff; right.
  rewrite warns_bind, E2, in_app_iff; right.
  rewrite warns_bind, E3, in_app_iff; right.
  rewrite warns_bind, E4, in_app_iff; right.
  rewrite warns_bind, E5, in_app_iff; right.
  rewrite warns_bind, E6, in_app_iff; right.
  rewrite warns_bind, E7, in_app_iff; right.
  rewrite warns_bind, E8, in_app_iff; right.
  rewrite warns_bind, E9, in_app_iff; right.
  rewrite warns_bind, E10, in_app_iff; right.
  rewrite warns_bind, E11, in_app_iff; right.
  rewrite warns_bind, V, in_app_iff; right.
  rewrite warns_bind, E13, in_app_iff; right.
  rewrite warns_bind. unfold py_index at 1 2.
  (replace (Z.of_nat ind2 <? 0)%Z with false by (symmetry; apply Z.ltb_ge; lia));
  (replace (Z.of_nat ind2 <? 0)%Z with false by (symmetry; apply Z.ltb_ge; lia)).
  rewrite Nat2Z.id, E14. rewrite in_app_iff; right. cbn [value snd ret].
  rewrite warns_bind. unfold py_index.
  (replace (Z.of_nat ind2 <? 0)%Z with false by (symmetry; apply Z.ltb_ge; lia));
  (replace (Z.of_nat ind2 <? 0)%Z with false by (symmetry; apply Z.ltb_ge; lia)).
  rewrite Nat2Z.id, E15. rewrite in_app_iff; right. cbn [value snd ret].
  rewrite L. cbn. left; reflexivity.
Qed.

(** The two scans behind that result.  [mismatch x y]: [y] is the distance
    between the trial height [x] and the height its stability number implies. *)
Definition mismatch disper Dn50 Tp h B rs rw beta g (x y : num) : Prop :=
  exists N, value (calculate_stability_number_Ns disper x Tp h B beta g) = Ok N
    /\ y = nabs (x - Dn50 * calculate_buoyant_density_Delta rs rw * N)%num.
(** [tab] holds the values a, a + d, a + 2 d, ... *)
Definition evenly (a d : num) (tab : list num) : Prop :=
  exists a' d', a = Fin a' /\ d = Fin d' /\
  forall i x, nth_error tab i = Some x -> x = Fin (a' + INR i * d').
(** Element [i] of [tab] has the smallest mismatch (unless that is no number). *)
Definition best_trial disper Dn50 Tp h B rs rw beta g (tab : list num) (i : nat) (x : num) : Prop :=
  nth_error tab i = Some x /\
  forall y, mismatch disper Dn50 Tp h B rs rw beta g x y -> isnan y = false ->
  forall x' y', In x' tab -> mismatch disper Dn50 Tp h B rs rw beta g x' y' ->
  isnan y' = false /\ nlt y' y = false.

Lemma nlt_trans x y z : nlt x y = true -> nlt y z = true -> nlt x z = true.
Proof.
  destruct x, y, z; simpl; try discriminate; try reflexivity.
  rewrite !Rltb_iff. lra.
Qed.
Lemma nlt_ge_trans x y z : isnan y = false -> nlt y x = false -> nlt z x = true -> nlt z y = true.
Proof.
  intros Hn. destruct x, y, z; simpl in *; try discriminate; try reflexivity.
  intros H. destruct (Rltb_spec r0 r); [discriminate|]. rewrite !Rltb_iff. lra.
Qed.

Lemma argmin_from_best l : forall pre best_i best,
  nth_error pre best_i = Some best ->
  (isnan best = false -> forall y, In y pre -> isnan y = false /\ nlt y best = false) ->
  forall i, argmin_from l (List.length pre) best_i best = i ->
  exists b, nth_error (pre ++ l) i = Some b
    /\ (isnan b = false -> forall y, In y (pre ++ l) -> isnan y = false /\ nlt y b = false).
Proof.
  induction l as [|x l IH]; intros pre bi b Hb Hm i E; cbn [argmin_from] in E.
  - subst. exists b. rewrite app_nil_r. auto.
  - destruct (isnan b) eqn:Nb.
    + subst. exists b. split; [|congruence]. rewrite nth_error_app1; [assumption|]. apply nth_error_Some. congruence.
    + replace (pre ++ x :: l)%list with ((pre ++ [x]) ++ l)%list by (rewrite <- app_assoc; reflexivity).
      replace (S (List.length pre)) with (List.length (pre ++ [x])) in E by (rewrite app_length; simpl; lia).
      destruct (isnan x || (x <? b)%num) eqn:C.
      * apply (IH (pre ++ [x])%list (List.length pre) x); [| |assumption].
        -- rewrite nth_error_app2, Nat.sub_diag by lia. reflexivity.
        -- intros Nx y Hy. rewrite Nx in C. cbn [orb] in C. apply in_app_iff in Hy. destruct Hy as [Hy|[<-|[]]].
           ++ destruct (Hm eq_refl y Hy) as [Ny Ly]. split; [assumption|].
              destruct (nlt y x) eqn:L; [|reflexivity]. rewrite (nlt_trans _ _ _ L C) in Ly. discriminate.
           ++ split; [assumption|]. destruct x; simpl; try reflexivity. apply Rltb_false. lra.
      * apply (IH (pre ++ [x])%list bi b); [| |assumption].
        -- rewrite nth_error_app1; [assumption|]. apply nth_error_Some. congruence.
        -- intros _ y Hy. apply in_app_iff in Hy. destruct Hy as [Hy|[<-|[]]]; [auto|].
           apply orb_false_iff in C. exact C.
Qed.

Lemma argmin_best l i : value (argmin l) = Ok i ->
  exists b, nth_error l i = Some b
    /\ (isnan b = false -> forall y, In y l -> isnan y = false /\ nlt y b = false).
Proof.
  destruct l as [|x l]; [discriminate|]. intros E. change (Ok (argmin_from l 1 0 x) = Ok i) in E. injection E as E.
  apply (argmin_from_best l [x] 0 x); [reflexivity| |exact E].
  intros Nx y [<-|[]]. split; [assumption|]. destruct x; simpl; try reflexivity. apply Rltb_false. lra.
Qed.

Lemma arange_evenly a b d tab : value (arange a b d) = Ok tab -> evenly a d tab.
Proof.
  destruct a as [a| | |], b as [b| | |], d as [d| | |]; cbn [arange]; try discriminate.
  destruct (Reqb d 0); [discriminate|]. unfold value, ret. cbn [snd]. intros E0. injection E0 as <-. exists a, d. repeat split. intros i x Hx.
  rewrite nth_error_map in Hx. destruct (nth_error (seq 0 _) i) as [k|] eqn:E; [|discriminate].
  assert (k = i).
  { assert (L : (i < List.length (seq 0 (Z.to_nat (- Int_part (- ((b - a) / d))))))%nat) by (apply nth_error_Some; congruence).
    rewrite seq_length in L. apply nth_error_nth with (d := O) in E. rewrite seq_nth in E by assumption. lia. }
  subst. injection Hx as <-. reflexivity.
Qed.

Lemma table_out_mismatch d D De Tp h B beta g tab : forall out,
  value (table_out d D De Tp h B beta g tab) = Ok out ->
  List.length out = List.length tab /\
  forall i x, nth_error tab i = Some x -> exists N,
    value (calculate_stability_number_Ns d x Tp h B beta g) = Ok N /\ nth_error out i = Some (D * De * N)%num.
Proof.
  induction tab as [|x tab IH]; intros out V.
  - injection V as <-. split; [reflexivity|]. intros [|i] y E; discriminate.
  - destruct (Ns_ok d x Tp h B beta g) as (N & VN). cbn [table_out] in V.
    rewrite value_bind, VN in V.
    cbn [check_usage_stabilitynumber is_none b2n Nat.add Nat.ltb Nat.leb Nat.eqb] in V.
    rewrite value_bind in V. cbn [value snd ret fst] in V. rewrite value_bind in V.
    destruct (value (table_out d D De Tp h B beta g tab)) as [rest|] eqn:E; [|discriminate].
    injection V as <-. destruct (IH rest eq_refl) as [L P]. split; [cbn [List.length]; congruence|].
    intros [|i] y Hy; [|apply (P i); exact Hy]. injection Hy as <-. exists N. auto.
Qed.

Lemma scan_best disper Dn50 Tp h B rs rw beta g tab out i :
  value (table_out disper Dn50 (calculate_buoyant_density_Delta rs rw) Tp h B beta g tab) = Ok out ->
  value (argmin (absdiffs tab out)) = Ok i ->
  exists x, best_trial disper Dn50 Tp h B rs rw beta g tab i x.
Proof.
  intros V A. destruct (table_out_mismatch _ _ _ _ _ _ _ _ _ _ V) as [L P].
  assert (HN : forall j x N, nth_error tab j = Some x ->
     value (calculate_stability_number_Ns disper x Tp h B beta g) = Ok N ->
     nth_error (absdiffs tab out) j = Some (nabs (x - Dn50 * calculate_buoyant_density_Delta rs rw * N))%num).
  { clear - P. intros j x N Hj VN. unfold absdiffs. rewrite nth_error_map.
    destruct (P j x Hj) as (N' & VN' & Ho). rewrite VN in VN'. injection VN' as <-.
    replace (nth_error (combine tab out) j) with (Some (x, (Dn50 * calculate_buoyant_density_Delta rs rw * N)%num)); [reflexivity|].
    symmetry. revert Hj Ho. generalize (Dn50 * calculate_buoyant_density_Delta rs rw * N)%num. clear. intros y.
    revert tab out. induction j; intros [|a tab] [|b out]; cbn; try discriminate.
    - congruence.
    - apply IHj. }
  destruct (argmin_best _ _ A) as (b & Hb & Hm).
  assert (Hx : exists x, nth_error tab i = Some x).
  { destruct (nth_error tab i) eqn:E; [eauto|]. exfalso. apply nth_error_None in E.
    assert (I : (i < List.length (absdiffs tab out))%nat) by (apply nth_error_Some; congruence).
    unfold absdiffs in I. rewrite map_length, combine_length in I. lia. }
  destruct Hx as [x Hx]. exists x. split; [assumption|].
  intros y (N & VN & ->) Ny x' y' Hx' (N' & VN' & ->).
  rewrite (HN i x N Hx VN) in Hb. injection Hb as <-. apply (Hm Ny).
  apply In_nth_error in Hx'. destruct Hx' as [j Hj]. eapply nth_error_In. apply (HN j x' N' Hj VN').
Qed.

(** The coarse scan has steps of 1/20 of the height for which the stability
    number is 1.8, from the smaller to the larger of that height and the one it
    implies; the fine scan has steps of 0.5 mm and starts below the trial height
    before the best one.  The result is implied by the best fine trial. *)
Theorem C55_wave_height_two_scans :
  forall disper Dn50 Tp h B rs rw beta g y,
    value (calculate_significant_wave_height_Hs disper Dn50 Tp h B rs rw beta g) = Ok y ->
    let De := calculate_buoyant_density_Delta rs rw in
    let s := (Dn50 * De * #1.8)%num in
    exists N0 coarse i xi x1 N1 fine j xj Nj,
      value (calculate_stability_number_Ns disper s Tp h B beta g) = Ok N0
      /\ evenly (nmin s (Dn50 * De * N0)%num) (s / #20)%num coarse
      /\ best_trial disper Dn50 Tp h B rs rw beta g coarse i xi
      /\ (i <> 0%nat -> nth_error coarse (i - 1) = Some x1)
      /\ (i = 0%nat -> nth_error coarse (List.length coarse - 1) = Some x1)
      /\ value (calculate_stability_number_Ns disper x1 Tp h B beta g) = Ok N1
      /\ evenly (nmin x1 (Dn50 * De * N1)%num) #0.0005 fine
      /\ best_trial disper Dn50 Tp h B rs rw beta g fine j xj
      /\ value (calculate_stability_number_Ns disper xj Tp h B beta g) = Ok Nj
      /\ y = (Dn50 * De * Nj)%num.
Proof.
  intros * V De s.
  unfold calculate_significant_wave_height_Hs in V. cbv zeta in V. fold De in V.
  step V r E1. step V N0 E2. step V r2 E3. step V t1 E4. step V o1 E5. step V ind E6.
  step V a1 E7. step V b1 E8. step V a2 E9. step V b2 E10. step V t2 E11. step V o2 E12.
  step V ind2 E13. step V x E14. step V y' E15. step V u E16.
  injection V as ->.
  cbn [check_usage_stabilitynumber is_none b2n Nat.add Nat.ltb Nat.leb Nat.eqb value snd ret] in E1, E3.
  injection E1 as <-. injection E3 as <-. cbn [fst] in *. fold s in E2, E4.
  apply value_py_index in E14, E15.
  destruct (scan_best _ _ _ _ _ _ _ _ _ _ _ _ E5 E6) as [xi Bi].
  destruct (scan_best _ _ _ _ _ _ _ _ _ _ _ _ E12 E13) as [xj Bj].
  destruct (table_out_mismatch _ _ _ _ _ _ _ _ _ _ E12) as [L2 P2].
  destruct (table_out_mismatch _ _ _ _ _ _ _ _ _ _ E5) as [L1 P1].
  destruct Bj as [Hxj Bj]. rewrite E14 in Hxj. injection Hxj as <-.
  destruct (P2 _ _ E14) as (Nj & VNj & Hoj). rewrite E15 in Hoj. injection Hoj as ->.
  assert (Hprev : exists k, nth_error t1 k = Some a1 /\ nth_error o1 k = Some b1
            /\ (ind <> 0 -> k = ind - 1)%nat /\ (ind = 0 -> k = List.length t1 - 1)%nat).
  { destruct ind as [|i].
    - exists (List.length t1 - 1)%nat. unfold py_index in E7, E8. change (Z.of_nat 0 - 1)%Z with (-1)%Z in E7, E8.
      change (-1 <? 0)%Z with true in *. cbv iota in *.
      destruct Bi as [Hi _]. assert (Hlen : (0 < List.length t1)%nat) by (apply nth_error_Some; congruence).
      replace (-1 + Z.of_nat (List.length t1) <? 0)%Z with false in E7 by (symmetry; apply Z.ltb_ge; lia).
      replace (-1 + Z.of_nat (List.length o1) <? 0)%Z with false in E8 by (symmetry; apply Z.ltb_ge; lia).
      replace (Z.to_nat (-1 + Z.of_nat (List.length t1))) with (List.length t1 - 1)%nat in E7 by lia.
      replace (Z.to_nat (-1 + Z.of_nat (List.length o1))) with (List.length t1 - 1)%nat in E8 by lia.
      destruct (nth_error t1 (List.length t1 - 1)) as [v|] eqn:F7; [|discriminate E7].
      destruct (nth_error o1 (List.length t1 - 1)) as [w|] eqn:F8; [|discriminate E8].
      cbv [value snd ret] in E7, E8. assert (v = a1) by congruence. assert (w = b1) by congruence.
      subst. repeat split; (assumption || reflexivity || lia).
    - exists i. replace (Z.of_nat (S i) - 1)%Z with (Z.of_nat i) in E7, E8 by lia.
      apply value_py_index in E7, E8. repeat split; try assumption; lia. }
  destruct Hprev as (k & Hk1 & Hk2 & Hk3 & Hk4).
  destruct (P1 _ _ Hk1) as (N1 & VN1 & Hok). rewrite Hk2 in Hok. injection Hok as ->.
  exists N0, t1, ind, xi, a1, N1, t2, ind2, x, Nj.
  repeat split; try assumption.
  - eapply arange_evenly. exact E4.
  - apply Bi.
  - intros; eapply (proj2 Bi); eassumption.
  - intros; eapply (proj2 Bi); eassumption.
  - intros Hn. rewrite <- (Hk3 Hn). assumption.
  - intros Hn. rewrite <- (Hk4 Hn). assumption.
  - eapply arange_evenly. exact E11.
  - intros; eapply Bj; eassumption.
  - intros; eapply Bj; eassumption.
Qed.

(** ** The toe-depth search *)
Lemma hacc_loop_result d fuel Ns Hs Tp B beta g dht : forall first h0 N0 r,
  value (calculate_stability_number_Ns d Hs Tp h0 B beta g) = Ok N0 -> first = nlt Ns N0 ->
  value (hacc_loop d fuel Ns Hs Tp B beta g dht first h0 N0) = Ok r ->
  exists p N N', r = (p + dht)%num
    /\ value (calculate_stability_number_Ns d Hs Tp p B beta g) = Ok N
    /\ value (calculate_stability_number_Ns d Hs Tp r B beta g) = Ok N'
    /\ nlt Ns N' = negb (nlt Ns N).
Proof.
  induction fuel; intros first h0 N0 r V0 Ef V; cbn [hacc_loop] in V;
    rewrite Ef, eqb_reflx in V; [discriminate V|].
  destruct (Ns_ok d Hs Tp (h0 + dht)%num B beta g) as (N1 & V1).
  rewrite value_bind, V1 in V.
  destruct (Bool.eqb (nlt Ns N0) (nlt Ns N1)) eqn:E.
  - apply eqb_prop in E. apply (IHfuel (nlt Ns N0) (h0 + dht)%num N1 r); assumption.
  - assert (r = (h0 + dht)%num) as ->.
    { destruct fuel; cbn [hacc_loop] in V; rewrite E in V; injection V as <-; reflexivity. }
    exists h0, N0, N1. repeat split; try assumption.
    destruct (nlt Ns N0), (nlt Ns N1); try reflexivity; discriminate.
Qed.

(** If the search ends, the requested stability number is bracketed by those
    of the returned depth and of the depth one step before it; the step is at
    most 1 mm. *)
Theorem C55_depth_search_brackets :
  forall disper fuel Dn50 Tp Hs B rs rw beta g r,
    value (calculate_significant_depth_above_toe_hacc disper fuel Dn50 Tp Hs B rs rw beta g) = Ok r ->
    let Ns := (Hs / (calculate_buoyant_density_Delta rs rw * Dn50))%num in
    exists p step N N', r = (p + step)%num
      /\ (step = #0.001 \/ (step = Hs / #20 /\ ngt step #0.001 = false))%num
      /\ value (calculate_stability_number_Ns disper Hs Tp p B beta g) = Ok N
      /\ value (calculate_stability_number_Ns disper Hs Tp r B beta g) = Ok N'
      /\ nlt Ns N' = negb (nlt Ns N).
Proof.
  intros * V. unfold calculate_significant_depth_above_toe_hacc in V.
  cbn [check_usage_stabilitynumber is_none b2n Nat.add Nat.ltb Nat.leb Nat.eqb] in V.
  rewrite value_bind in V. cbn [ret value snd fst] in V. fold (@value num) in V.
  set (Ns := (Hs / (calculate_buoyant_density_Delta rs rw * Dn50))%num) in *.
  change (value (bind (calculate_stability_number_Ns disper Hs Tp (Hs / #20)%num B beta g) (fun Ns_out =>
     bind (hacc_loop disper fuel Ns Hs Tp B beta g (Hs / #20)%num (nlt Ns Ns_out) (Hs / #20)%num Ns_out) (fun hacc =>
     if ngt (Hs / #20)%num #0.001%num then
       bind (calculate_stability_number_Ns disper Hs Tp (hacc - Hs / #20)%num B beta g) (fun Ns_out =>
         hacc_loop disper fuel Ns Hs Tp B beta g #0.001%num (nlt Ns Ns_out) (hacc - Hs / #20)%num Ns_out)
     else ret hacc))) = Ok r) in V.
  step V N0 E0. step V h1 E1.
  destruct (ngt (Hs / #20)%num #0.001%num) eqn:G.
  - step V N2 E2. apply hacc_loop_result in V; [|assumption|reflexivity].
    destruct V as (p & N & N' & ? & ? & ? & ?). exists p, #0.001%num, N, N'. auto 10.
  - injection V as <-. apply hacc_loop_result in E1; [|assumption|reflexivity].
    destruct E1 as (p & N & N' & ? & ? & ? & ?). exists p, (Hs / #20)%num, N, N'. auto 10.
Qed.

Lemma hacc_loop_forever d Ns Hs Tp B beta g dht fuel : yields_wave_number d ->
  0 < Hs -> 0 < Tp -> 0 < g -> 0 < dht -> Ns < 1.8 ->
  forall h0 N0, 0 < h0 -> nle #1.8%num N0 = true ->
  value (hacc_loop d fuel (Fin Ns) (Fin Hs) (Fin Tp) (Fin B) (Fin beta) (Fin g) (Fin dht) true (Fin h0) N0)
  = Err OutOfFuel.
Proof.
  intros Hd HHs HT Hg Hdh HN.
  assert (G : forall N, nle #1.8%num N = true -> nlt (Fin Ns) N = true).
  { intros [x| | |]; try discriminate; [|reflexivity].
    rewrite nle_fin, nlt_fin. intros L. apply Rltb_true. destruct (Rleb_spec 1.8 x); [lra|discriminate]. }
  induction fuel; intros h0 N0 Hh HN0; cbn [hacc_loop]; rewrite (G _ HN0); [reflexivity|].
  cbn [Bool.eqb]. rewrite nadd_fin.
  destruct (Ns_positive_case d Hs Tp (h0 + dht) B beta g) as (N1 & V1 & L1); try assumption; [lra|].
  rewrite value_bind, V1. apply IHfuel; [lra|assumption].
Qed.

(** A stability number below 1.8 is asked for: the search never ends. *)
Theorem C55_depth_search_never_ends :
  forall disper Dn50 Tp Hs B rs rw beta g, yields_wave_number disper ->
    0 < Dn50 -> 0 < Tp -> 0 < Hs -> 0 < rw -> rw < rs -> 0 < g ->
    Hs / ((rs / rw - 1) * Dn50) < 1.8 ->
    forall fuel,
      value (calculate_significant_depth_above_toe_hacc disper fuel (Fin Dn50) (Fin Tp) (Fin Hs) (Fin B)
               (Fin rs) (Fin rw) (Fin beta) (Fin g)) = Err OutOfFuel.
Proof.
  intros * Hd HD HT HHs Hrw Hrs Hg L fuel. fold (buoyant rs rw) in L.
  pose proof (buoyant_pos rs rw Hrw Hrs). assert (0 < buoyant rs rw * Dn50) by rpos.
  unfold calculate_significant_depth_above_toe_hacc. rewrite Delta_fin by lra.
  cbn [check_usage_stabilitynumber is_none b2n Nat.add Nat.ltb Nat.leb Nat.eqb].
  rewrite value_bind. mval. cbn [fst]. nfin.
  destruct (Ns_positive_case disper Hs Tp (Hs / 20) B beta g) as (N1 & V1 & L1); try assumption; [lra|].
  rewrite V1.
  replace (nlt (Fin (Hs / (buoyant rs rw * Dn50))) N1) with true.
  - mval. rewrite hacc_loop_forever; try assumption; try lra. reflexivity.
  - destruct N1 as [x| | |]; try discriminate; [|reflexivity].
    rewrite nle_fin in L1. rewrite nlt_fin. symmetry. apply Rltb_true.
    destruct (Rleb_spec 1.8 x); [lra|discriminate].
Qed.

(** ** Both failures occur for physical inputs *)
Lemma exp_1_bounds : 2.25 < exp 1 <= 3.
Proof.
  split; [|apply exp_le_3].
  replace 1 with (1 / 2 + 1 / 2) by field. rewrite exp_plus.
  pose proof (exp_ineq1 (1 / 2) ltac:(lra)). nra.
Qed.

(** A 1 m deep toe with k h = 1/2, head-on waves of 10 m. *)
Example C55_crash_example :
  exists Tp B, 0 < Tp /\ 0 < B /\
    forall disper, solves_dispersion disper ->
      value (calculate_significant_wave_height_Hs disper (Fin (10 / 1.8)) (Fin Tp) #1 (Fin B) #2000 #1000 #0 #9.81)%num
      = Err ValueError.
Proof.
  set (k := 1 / 2). set (w := sqrt (9.81 * k * tanh (k * 1))).
  assert (Hk : 0 < k) by (unfold k; lra).
  assert (Ht : 0 < tanh (k * 1)) by (apply tanh_pos; lra).
  assert (Hw : 0 < w) by (unfold w; rpos).
  assert (HPI : 0 < PI) by rpos.
  exists (2 * PI / w), (PI / 3). split; [rpos|]. split; [rpos|].
  intros d Hd.
  apply C55_wave_height_search_crashes; try lra.
  replace (1.8 * ((2000 / 1000 - 1) * (10 / 1.8))) with 10 by lra.
  destruct (C55_stability_number_is_the_published_formula d 10 (2 * PI / w) 1 (PI / 3) 0 9.81)
    as (k' & Hk' & Ed & V & _); try lra; try rpos. { apply solves_yields; assumption. }
  destruct (Hd (2 * PI / (2 * PI / w)) 1 9.81) as (k2 & Hk2 & Ed2 & Dk); try lra; try rpos.
  rewrite Ed in Ed2. injection Ed2 as <-.
  assert (k' = k) as ->.
  { replace (2 * PI / (2 * PI / w)) with w in Dk by (field; split; lra).
    apply (dispersion_unique w 1 9.81); try lra; try assumption.
    unfold dispersion, w. rewrite pow2_sqrt by rpos. reflexivity. }
  assert (Eka : takahashi_kappa k 1 (PI / 3) (0 * (PI / 180)) = 1 / sinh 1 * (1 / 4)).
  { unfold takahashi_kappa. rewrite Rmult_0_l, sin_0, cos_0.
    replace (k * (PI / 3) * 1) with (PI / 6) by (unfold k; field).
    rewrite sin_PI6. replace (2 * k * 1) with 1 by (unfold k; field).
    rewrite Rmax_right; [field; apply Rgt_not_eq, sinh_pos; lra|].
    rewrite pow_i by lia. rewrite Rmult_0_r, Rmult_0_l. lra. }
  set (ka := takahashi_kappa k 1 (PI / 3) (0 * (PI / 180))) in *.
  assert (Hs1 : 0.9 < sinh 1 <= 1.5).
  { unfold sinh. rewrite exp_Ropp. pose proof exp_1_bounds as [L U].
    assert (/ exp 1 < / 2.25) by (apply Rinv_lt_contravar; [nra|lra]).
    assert (0 < / exp 1) by rpos. lra. }
  assert (Hka : 1 / 6 <= ka < 0.28).
  { rewrite Eka. assert (/ 1.5 <= / sinh 1) by (apply Rinv_le_contravar; lra).
    assert (/ sinh 1 < / 0.9) by (apply Rinv_lt_contravar; [nra|lra]). lra. }
  rewrite V by lra. do 2 f_equal. unfold takahashi_Ns. apply Rmax_left.
  set (q := Rpower ka (1 / 3)).
  assert (Hq : 1 / 2 < q).
  { unfold q. apply Rnot_le_lt. intros L.
    assert (E : q ^ 3 <= (1 / 2) ^ 3) by (apply pow_incr; split; [unfold q; rpos|assumption]).
    unfold q in E. rewrite <- Rpower_3, Rpower_cancel in E by (try rpos; lra). lra. }
  set (a := (1 - ka) / q). set (b := (1 - ka) ^ 2 / q).
  assert (Ha : 0 < a) by (unfold a; rpos).
  assert (Hb : b = (1 - ka) * a) by (unfold a, b; field; lra).
  assert (Hb0 : 0 < b) by (rewrite Hb; apply Rmult_lt_0_compat; lra).
  assert (Hb2 : b < 2).
  { unfold b. apply (Rmult_lt_reg_r q); [lra|]. unfold Rdiv. rewrite Rmult_assoc, Rinv_l by lra. nra. }
  set (y := 1.5 * b * (1 / 10)). assert (Hy : 0 < y < 0.3) by (unfold y; lra).
  assert (Ee : exp (- y) <= / (1 + y)).
  { rewrite exp_Ropp. apply Rinv_le_contravar; [lra|]. apply Rlt_le, exp_ineq1. lra. }
  assert (Hi : / (1 + y) <= 1 - y / 1.3).
  { apply (Rmult_le_reg_r (1 + y)); [lra|]. rewrite Rinv_l by lra. nra. }
  assert (1.3 * a * (1 / 10) <= 1.8 * (y / 1.3)); [|lra].
  unfold y. rewrite Hb. nra.
Qed.

Example C55_endless_example :
  forall fuel, value (calculate_significant_depth_above_toe_hacc exact_disper fuel
                        #2 #10 #3 #4 #2650 #1025 #0 #9.81)%num = Err OutOfFuel.
Proof.
  intros. apply C55_depth_search_never_ends; try lra.
  apply solves_yields, exact_disper_solves.
Qed.

Example C55_example :
  exists N, 1.8 <= N /\
    (value (calculate_stability_number_Ns exact_disper #3 #10 #5 #4 #45 #9.81)%num = Ok (Fin N)).
Proof.
  destruct (C55_stability_number_is_the_published_formula exact_disper 3 10 5 4 45 9.81)
    as (k & Hk & _ & V & _); try lra. { apply solves_yields, exact_disper_solves. }
  eexists. split; [|apply V]; [apply Rmax_l|].
  destruct (sinh_2kh k 5) as (P1 & P2); try lra.
  unfold takahashi_kappa. apply Rmult_lt_0_compat; [rpos|].
  replace (45 * (PI / 180)) with (PI / 4) by field.
  assert (Hs : sin (PI / 4) ^ 2 = 1 / 2).
  { rewrite sin_PI4. unfold Rdiv. rewrite Rmult_1_l, pow_inv, pow2_sqrt by lra. field. }
  assert (Hc : cos (PI / 4) ^ 2 = 1 / 2).
  { rewrite cos_PI4. unfold Rdiv. rewrite Rmult_1_l, pow_inv, pow2_sqrt by lra. field. }
  rewrite Hs, Hc. set (x := k * 4 * cos (PI / 4)).
  pose proof (sin2_cos2 x) as T. unfold Rsqr in T.
  destruct (Req_dec (cos x) 0) as [Z|Z].
  - eapply Rlt_le_trans; [|apply Rmax_r]. nra.
  - eapply Rlt_le_trans; [|apply Rmax_l].
    assert (0 < cos x ^ 2) by (apply Rlt_le_trans with (Rsqr (cos x)); [apply Rsqr_pos_lt; assumption|unfold Rsqr; lra]).
    lra.
Qed.
