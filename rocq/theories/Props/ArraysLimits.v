(** Property C62: where a call with arrays is not a call for each place. *)
From Coq Require Import Reals Lra Lia List Bool Arith String.
From Verif.Lib Require Import Num Monad Arr RTac NTac Table Str.
From Verif.Spec Require Import Arrays.
From Verif.Model Require Import CoreUtility.
From Verif.Model Require CorePhysics ArrCore VanderMeer1988 ArrVanderMeer1988 VanderMeer1998 ArrVanderMeer1998
  ArrVanGent2001 VanGent2001 VanGent2023 ArrVanGent2023 ArrHudson1959 Hudson1959.
From Verif.Proofs Require Import Core CheckTac Arrays.
Import ListNotations.
Open Scope nat_scope.

(** ** Stone sizes are given for the whole array or not at all *)

(** As soon as one diameter is given, the missing ones stay missing, whatever the masses. *)
Theorem C62_gaps_stay : forall Dn50 M50 rho d, In d (entries Dn50) -> d <> NaN ->
  ArrCore.check_usage_Dn50_or_M50 Dn50 M50 rho = ret Dn50.
Proof.
  intros Dn50 M50 rho d I N. unfold ArrCore.check_usage_Dn50_or_M50.
  assert (A : all_nan Dn50 = false).
  { apply not_true_is_false. unfold all_nan. rewrite forallb_forall. intros H. specialize (H d I). destruct d; discriminate || congruence. }
  rewrite A. reflexivity.
Qed.

Theorem C62_sizes_refuted : exists Dn50 M50 rho,
  ~ elementwise [Dn50; M50; rho] (ArrCore.check_usage_Dn50_or_M50 Dn50 M50 rho)
      (fun at_ => value (CorePhysics.check_usage_Dn50_or_M50 (at_ Dn50) (at_ M50) (at_ rho))).
Proof.
  exists (Ar [NaN; #1]%num), (Sc #5300%num), (Sc #2650%num). intros (H & _).
  destruct (H (Some 2)) as (r & E & _ & P).
  - split; [apply shapes_ok; reflexivity|right; left; reflexivity].
  - exists (Some 2). apply shapes_ok. reflexivity.
  - rewrite (C62_gaps_stay _ _ _ #1%num) in E by (cbn; auto; discriminate). injection E as <-.
    specialize (P 0 ltac:(cbn; lia)). unfold CorePhysics.check_usage_Dn50_or_M50, CorePhysics.calculate_Dn50_from_M50 in P.
    cbn [place at_ nth_error isnan andb negb] in P. rewrite !ndiv_fin in P by lra. rewrite npow_fin in P by lra. discriminate P.
Qed.

(** A density missing at one place is not replaced by the default of 2650. *)
Theorem C62_default_density_refuted : exists M50 rho,
  ~ elementwise [M50; rho] (ArrCore.check_usage_Dn50_or_M50 (Sc NaN) M50 rho)
      (fun at_ => value (CorePhysics.check_usage_Dn50_or_M50 NaN (at_ M50) (at_ rho))).
Proof.
  exists (Sc #5300%num), (Ar [NaN; #2650]%num). intros (H & _).
  destruct (H (Some 2)) as (r & E & _ & P).
  - split; [apply shapes_ok; reflexivity|right; right; left; reflexivity].
  - exists (Some 2). apply shapes_ok. reflexivity.
  - specialize (P 0 ltac:(cbn; lia)). unfold CorePhysics.check_usage_Dn50_or_M50, CorePhysics.calculate_Dn50_from_M50 in P.
    cbn [place at_ nth_error isnan andb negb] in P. rewrite !ndiv_fin in P by lra. rewrite npow_fin in P by lra.
    unfold ArrCore.check_usage_Dn50_or_M50 in E. cbn [all_nan entries forallb isnan andb negb] in E.
    unfold ArrCore.calculate_Dn50_from_M50, apow, op2, lift2, lit, value_of in E. rewrite !bind_ret_l in E.
    cbn [bcast map amap] in E. rewrite !bind_ret_l in E. cbn [bcast map amap] in E. rewrite ?bind_ret_l in E. cbn [bcast map amap] in E.
    rewrite ?ndiv_fin in E by lra. injection E as <-. cbn [at_ nth_error place] in P. cbn [ndiv] in P.
    rewrite Reqb_false in P by lra. discriminate P.
Qed.

(** ** Validity checks *)

(** An array is checked entry by entry, with the warnings of the scalars. *)
Theorem C62_check_each_entry : forall name formula a lo hi,
  warns (ArrCore.acheck name formula (value_of a) lo hi) = flat_map (fun x => warns (check name formula x lo hi)) (entries a).
Proof.
  intros. unfold ArrCore.acheck. unfold value_of. rewrite bind_ret_l.
  assert (W : forall l, warns (check_values name formula l lo hi ;; ret tt) = flat_map (fun x => warns (check name formula x lo hi)) l).
  { induction l as [|x l IH]; [reflexivity|]. cbn [flat_map]. rewrite <- IH. unfold check, check_variable_validity_range. cbn [check_values].
    destruct (nlt x lo || ngt x hi)%bool; unfold warns, bind, warn, ret in *; cbn; destruct (check_values name formula l lo hi) as [w [b|e]]; cbn; rewrite ?app_nil_r; reflexivity. }
  apply W.
Qed.

(** One missing value in an array switches the check of that quantity off for all
    places, although the calls for the other places would warn. *)
Theorem C62_one_gap_silences : forall Hs H2p Tp N cot P rho, In NaN (entries P) ->
  ArrVanderMeer1988.check_validity_range Hs H2p Tp N cot P rho = ArrVanderMeer1988.check_validity_range Hs H2p Tp N cot anan rho.
Proof.
  intros * I. unfold ArrVanderMeer1988.check_validity_range.
  assert (G : ArrCore.given P = false).
  { unfold ArrCore.given, any_nan. rewrite (proj2 (existsb_exists _ _)); [reflexivity|]. exists NaN. auto. }
  rewrite G. reflexivity.
Qed.

Theorem C62_warnings_refuted : exists P, shape P = Some 2
  /\ warns (ArrVanderMeer1988.check_validity_range anan anan anan anan anan P anan) = []
  /\ warns (VanderMeer1988.check_validity_range NaN NaN NaN NaN NaN (place 0 P) NaN) <> [].
Proof.
  exists (Ar [#0.7; NaN]%num). split; [reflexivity|]. split.
  - rewrite C62_one_gap_silences by (cbn; auto). reflexivity.
  - cbn [place at_ nth_error]. unfold VanderMeer1988.check_validity_range, check.
    cbn. rewrite (Rltb_true 0.6 0.7) by lra. rewrite orb_true_r. cbn. discriminate.
Qed.

(** ** Calls that do not take several values *)

Lemma truth_several a n : shape a = Some n -> 2 <= n -> value (truth a) = Err ValueError.
Proof. destruct a as [x|[|x [|y l]]]; cbn; intros E L; try discriminate; try (injection E as <-; lia). reflexivity. Qed.

Lemma common_shape args sh (call : M nums) : common args sh -> uses call (map shape args) -> fits sh call ->
  exists r, value call = Ok r /\ shape r = sh.
Proof.
  intros (F & C) U (r & E & S). exists r. split; [auto|]. apply stretches_antisym; [auto|].
  destruct C as [->|C]; [apply stretches_none|]. apply Exists_exists in C as (a & I & <-).
  specialize (U r E). rewrite Forall_forall in U. apply U. apply in_map. exact I.
Qed.

(** The depth above the toe of Van der Meer (1998): ValueError for two or more places. *)
Theorem C62_vdm98_ht : forall Hs Dn50 h Nod rho_rock rho_water n, common [Hs; Dn50; Nod; rho_rock; rho_water] (Some n) -> 2 <= n ->
  value (ArrVanderMeer1998.calculate_depth_above_toe_ht Hs Dn50 h Nod rho_rock rho_water) = Err ValueError.
Proof.
  intros * C L. pose proof C as (F & _). args_tac. unfold ArrVanderMeer1998.calculate_depth_above_toe_ht.
  set (body := fun Delta : nums => ((((Hs * apow Nod (- #0.15)) / (Delta * Dn50)) - #2) / #6.2)%arr).
  assert (B : exists r, value (Delta <- ArrCore.calculate_buoyant_density_Delta rho_rock rho_water ;; body Delta) = Ok r /\ shape r = Some n).
  { apply (common_shape [Hs; Dn50; Nod; rho_rock; rho_water]); [exact C| |].
    - unfold body. autounfold with arrays. eapply uses_incl; [uses_tac|incl_tac].
    - unfold body. autounfold with arrays. fits_tac; try (apply fits_leaf; assumption). }
  destruct B as (r & E & S).
  destruct (ArrCore.calculate_buoyant_density_Delta rho_rock rho_water) as [w [D|e]] eqn:ED; [|unfold value, bind in E; discriminate E].
  assert (ED' : value (ArrCore.calculate_buoyant_density_Delta rho_rock rho_water) = Ok D) by (rewrite ED; reflexivity).
  rewrite <- ED in *. clear ED.
  etransitivity; [apply (value_bind_ok _ _ D ED')|]. cbv beta.
  assert (E2 : value (body D) = Ok r) by (rewrite <- E; symmetry; apply (value_bind_ok _ _ D ED')).
  etransitivity; [apply (value_bind_ok (body D) _ r E2)|]. cbv beta.
  unfold cmp, lift2, value_of, lit. rewrite !bind_ret_l.
  destruct r as [x|l]; [discriminate|]. cbn [bcast]. rewrite bind_ret_l. rewrite value_bind, (truth_several _ n); [reflexivity| |auto].
  cbn [shape]. rewrite map_length. exact S.
Qed.

(** ... although the scalar call returns for each of them. *)
Example C62_vdm98_ht_example : forall Hs Dn50 h Nod rho_rock rho_water, exists r,
  value (VanderMeer1998.calculate_depth_above_toe_ht Hs Dn50 h Nod rho_rock rho_water) = Ok r.
Proof. intros. unfold VanderMeer1998.calculate_depth_above_toe_ht, VanderMeer1998.check_validity. cbv zeta. mchecks. eexists. reflexivity. Qed.

(** Run-up exceeded by 2% (Van Gent, 2001): the wave height is one number. *)
Theorem C62_z2p : forall Tmm10 gamma cot Hm0 Hs c0 c1 n, 2 <= n -> shape Hm0 = Some n \/ (shape Hm0 = None /\ shape Hs = Some n) ->
  value (ArrVanGent2001.calculate_wave_runup_height_z2p Tmm10 gamma cot Hm0 Hs c0 c1) = Err ValueError.
Proof.
  intros * L H. assert (S : forall a m, shape a = Some m -> 2 <= m -> value (ArrVanGent2001.isnan_truth a) = Err ValueError).
  { intros a m E Lm. apply (truth_several _ m); [|auto]. rewrite shape_amap. auto. }
  unfold ArrVanGent2001.calculate_wave_runup_height_z2p.
  destruct H as [H|(H & K)].
  - rewrite value_bind, value_bind, (S _ n H L). reflexivity.
  - destruct Hm0 as [x|l]; [|discriminate]. unfold ArrVanGent2001.isnan_truth at 1. cbn [amap truth]. rewrite bind_ret_l.
    destruct (isnan x).
    + rewrite value_bind, (S _ n K L). reflexivity.
    + rewrite bind_ret_l. rewrite value_bind, value_bind, (S _ n K L). reflexivity.
Qed.

Example C62_z2p_example : exists r,
  value (VanGent2001.calculate_wave_runup_height_z2p #8 #0.5 #3 #2 NaN #1.35 #4) = Ok r.
Proof. eexists. unfold VanGent2001.calculate_wave_runup_height_z2p. cbn [isnan andb orb negb]. reflexivity. Qed.

(** One damage percentage of 100 or more (or NaN) ends the call for all places. *)
Theorem C62_hudson_outside : forall Hs rho_water rho_armour KD cot p rock alpha_Hs,
  (strip (lower rock) = "rough" \/ strip (lower rock) = "smooth")%string -> Exists (fun x => nlt x #100 = false) (entries p) ->
  value (ArrHudson1959.calculate_median_rock_mass_M50 Hs rho_water rho_armour KD cot p rock alpha_Hs) = Err IndexError
  /\ value (ArrHudson1959.calculate_significant_wave_height_Hs Hs rho_water rho_armour KD cot p rock alpha_Hs) = Err IndexError.
Proof.
  intros * R X.
  assert (G : forall l, List.length l = 9 -> forall x, (exists y, value (index l (searchsorted_right Hudson1959.percentages x)) = Ok y)
     \/ value (index l (searchsorted_right Hudson1959.percentages x)) = Err IndexError).
  { intros l E x. unfold index, value. destruct (nth_error l (searchsorted_right Hudson1959.percentages x)); cbn; eauto. }
  assert (B : forall l x, List.length l = 9 -> nlt x #100 = false -> value (index l (searchsorted_right Hudson1959.percentages x)) = Err IndexError).
  { intros l x E H. do 9 (destruct l as [|? l]; [discriminate|]). destruct l; [|discriminate].
    assert (O : searchsorted_right Hudson1959.percentages x = 9).
    { unfold Hudson1959.percentages. cbn [searchsorted_right].
      destruct x as [r| | |]; cbn [nlt] in *; try reflexivity; [|discriminate].
      assert (100 <= r)%R by (destruct (Rltb_spec r 100); [discriminate|lra]).
      rewrite !Rltb_false by lra. reflexivity. }
    rewrite O. reflexivity. }
  assert (Q : forall l, List.length l = 9 -> value (each (fun x => index l (searchsorted_right Hudson1959.percentages x)) (value_of p)) = Err IndexError).
  { intros l E. unfold each. etransitivity; [apply (value_bind_ok (value_of p) _ p); reflexivity|]. destruct p as [x|q]; cbn [entries] in X.
    - inversion X as [? ? H|? ? H]; subst; [|inversion H]. rewrite value_bind, B; auto.
    - rewrite value_bind.
      assert (V : value (each_of (fun x => index l (searchsorted_right Hudson1959.percentages x)) q) = Err IndexError).
      { induction X as [x q H|x q H IH]; cbn [each_of]; rewrite value_bind.
        - rewrite B; auto.
        - destruct (G l E x) as [(y & ->)| ->]; [|reflexivity]. rewrite value_bind, IH. reflexivity. }
      rewrite V. reflexivity. }
  assert (T : value (ArrHudson1959.lookup_table_damage_factors p rock) = Err IndexError).
  { unfold ArrHudson1959.lookup_table_damage_factors. destruct R as [-> | ->]; cbn [String.eqb Ascii.eqb Bool.eqb]; apply Q; reflexivity. }
  split; unfold ArrHudson1959.calculate_median_rock_mass_M50, ArrHudson1959.calculate_significant_wave_height_Hs; rewrite value_bind, T; reflexivity.
Qed.

Example C62_hudson_example : value (ArrHudson1959.lookup_table_damage_factors (Ar [#7; #35]) "rough") = Ok (Ar [#1.08; #1.41])
  /\ value (ArrHudson1959.calculate_median_rock_mass_M50 (Sc #2) (Sc #1025) (Sc #2650) (Sc #4) (Sc #2) (Ar [#7; #100]) "rough" (Sc #1.27)) = Err IndexError.
Proof.
  split.
  - cbn. repeat first [rewrite Rltb_true by lra|rewrite Rltb_false by lra]. reflexivity.
  - apply (C62_hudson_outside (Sc #2) (Sc #1025) (Sc #2650) (Sc #4) (Sc #2) (Ar [#7; #100]) "rough" (Sc #1.27)); [left; reflexivity|].
    right. left. cbn. apply Rltb_false. lra.
Qed.

(** ** Transmission of Van Gent et al. (2023): only the first period counts *)

Theorem C62_first_period : forall disper Hm0 T Rc B structure_type t rest k, entries T = t :: rest ->
  value (VanGent2023.coefficients structure_type) = Ok k ->
  elementwise [Hm0; Rc; B] (ArrVanGent2023.calculate_wave_transmission_Kt disper Hm0 T Rc B structure_type)
    (fun at_ => value (VanGent2023.calculate_wave_transmission_Kt disper (at_ Hm0) t (at_ Rc) (at_ B) structure_type)).
Proof.
  intros * E K. unfold ArrVanGent2023.calculate_wave_transmission_Kt, VanGent2023.calculate_wave_transmission_Kt.
  assert (K' : VanGent2023.coefficients structure_type = ret k).
  { revert K. unfold VanGent2023.coefficients.
    repeat match goal with |- context [if ?b then _ else _] => destruct b end; intros H; try discriminate H; injection H as <-; reflexivity. }
  rewrite K'. destruct k as [[[[k1 k2] k3] k4] k5]. rewrite bind_ret_l.
  unfold ArrVanGent2023.deep_wavelength. rewrite E. rewrite bind_ret_l. unfold ArrVanGent2023.coefficient, apow, atanh.
  elementwise_tac. rewrite bind_ret_l. reflexivity.
Qed.

(** So an array of periods is not an array of calls, whatever the wave numbers. *)
Theorem C62_periods_refuted : forall disper, exists Hm0 T Rc B,
  ~ elementwise [Hm0; T; Rc; B] (ArrVanGent2023.calculate_wave_transmission_Kt disper Hm0 T Rc B "permeable")
      (fun at_ => value (VanGent2023.calculate_wave_transmission_Kt disper (at_ Hm0) (at_ T) (at_ Rc) (at_ B) "permeable")).
Proof.
  intros disper. exists (Sc #2%num), (Ar [#6; #12]%num), (Sc #0%num), (Sc #10%num). intros (H & _).
  destruct (H (Some 2)) as (r & E & S & _).
  - split; [apply shapes_ok; reflexivity|right; right; left; reflexivity].
  - exists (Some 2). apply shapes_ok. reflexivity.
  - destruct (proj1 (C62_first_period disper (Sc #2) (Ar [#6; #12]) (Sc #0) (Sc #10) "permeable" #6 [#12] _ eq_refl eq_refl) None) as (r' & E' & S' & _).
    + split; [apply shapes_ok; reflexivity|left; reflexivity].
    + exists None. apply shapes_ok. reflexivity.
    + rewrite E in E'. injection E' as <-. congruence.
Qed.
