(** C85, functions whose answer in still water depends on the structure. *)
From Coq Require Import Reals Lra List Bool String ZArith.
From Verif.Lib Require Import Num Monad RTac NTac.
From Verif.Spec Require Import Numbers StillWater.
From Verif.Proofs Require Import Core CheckTac Numbers StillWater Weibull.
From Verif.Model Require CoreUtility CorePhysics Numpy DAngremond1996 Briganti2003 VanGent2023 CrestWall2019 VanGent2001 RearVanGent2007
  Gerding1993 Cubes EtemadShahidi2021 VanGentVanderWerf2014.
From Verif.Props Require ToeEtemad.
Open Scope R_scope.

Ltac steps :=
  repeat first [(apply answer_bind_unit; [solve [clean]|cbv beta]) | (apply answer_bind_ret; cbv beta) | apply answer_bind_assoc]; apply answer_ret.

(** ** Transmission: the limits of the formulas *)
Theorem C85_dangremond T h Rc B cot_alpha C1 checked : positives (T :: B :: cot_alpha :: C1 :: nil) ->
  let Kt := DAngremond1996.calculate_wave_transmission_Kt_permeable #0%num (Fin T) h (Fin Rc) (Fin B) (Fin cot_alpha) (Fin C1) checked in
  (0 < Rc -> answer_is #0.075%num Kt) /\ (Rc < 0 -> answer_is #0.8%num Kt) /\ (Rc = 0 -> answer_is NaN Kt).
Proof.
  intros K Kt. all_positive. pose proof PI_RGT_0. unfold Kt, DAngremond1996.calculate_wave_transmission_Kt_permeable.
  cbv beta delta [CorePhysics.calculate_Iribarren_number_ksi CorePhysics.calculate_wave_steepness_s CorePhysics.g_default].
  cbv zeta. repeat split; intros S.
  - apply answer_bind_unit; [clean|]. apply answer_ret. zfin. cbn [answer_is answering_num]. reflexivity.
  - apply answer_bind_unit; [clean|]. apply answer_ret. zfin. cbn [answer_is answering_num]. f_equal. apply Rmax_right. dec. lra.
  - subst. apply answer_bind_unit; [clean|]. apply answer_ret. zfin. cbn [answer_is answering_num]. reflexivity.
Qed.

Theorem C85_briganti T Rc B cot_alpha : positives (T :: B :: cot_alpha :: nil) ->
  let Kt := Briganti2003.calculate_wave_transmission_Kt #0%num (Fin T) (Fin Rc) (Fin B) (Fin cot_alpha) in
  (Rc <> 0 -> answer_is #0.05%num Kt) /\ (Rc = 0 -> answer_is NaN Kt).
Proof.
  intros K Kt. all_positive. pose proof PI_RGT_0. unfold Kt, Briganti2003.calculate_wave_transmission_Kt.
  cbv beta delta [CorePhysics.calculate_Iribarren_number_ksi CorePhysics.calculate_wave_steepness_s CorePhysics.g_default].
  cbv zeta. split; intros S.
  - destruct (Rdichotomy _ _ S); zfin; cbv iota; rewrite bind_ret_l; apply answer_bind_unit; try clean; apply answer_ret; zfin; reflexivity.
  - subst. zfin. cbv iota. rewrite bind_ret_l. apply answer_bind_unit; [clean|]. apply answer_ret. zfin. reflexivity.
Qed.

(** Van Gent (2023), for a wave-number solver with a positive answer: c5 - c1
    behind an emerged and c5 + c1 behind a submerged structure. *)
Theorem C85_vangent2023 disper T Rc B k structure c1 c2 c3 c4 c5 : positives (T :: B :: k :: c1 :: c2 :: c3 :: nil) ->
  disper (ndiv CorePhysics.two_pi (Fin T)) VanGent2023.very_deep CorePhysics.g_default = Fin k ->
  VanGent2023.coefficients structure = ret (Fin c1, Fin c2, Fin c3, Fin c4, Fin c5) ->
  let Kt := VanGent2023.calculate_wave_transmission_Kt disper #0%num (Fin T) (Fin Rc) (Fin B) structure in
  (0 < Rc -> answer_is (Fin (c5 - c1)) Kt) /\ (Rc < 0 -> answer_is (Fin (c5 + c1)) Kt) /\ (Rc = 0 -> answer_is NaN Kt).
Proof.
  intros K Ek Ec Kt. all_positive. pose proof PI_RGT_0. unfold Kt, VanGent2023.calculate_wave_transmission_Kt. rewrite Ec, bind_ret_l.
  unfold VanGent2023.deep_wavelength, CorePhysics.local_wavelength. rewrite Ek. unfold CorePhysics.two_pi.
  cbv zeta. repeat split; intros S.
  - apply answer_ret. zfin. cbn [answer_is answering_num]. f_equal. ring.
  - apply answer_ret. zfin. cbn [answer_is answering_num]. f_equal. ring.
  - subst. apply answer_ret. zfin. reflexivity.
Qed.

(** ** Crest walls: no load, unless the base of the wall is above the armour crest *)
Theorem C85_crest_wall :
  (forall T cot_alpha Ac Rc Hwall gamma_beta gamma_f c0 c1 rho_water g cFH,
     positives (T :: cot_alpha :: Ac :: Hwall :: gamma_beta :: gamma_f :: c0 :: c1 :: rho_water :: g :: cFH :: nil) ->
     answer_is #0%num (CrestWall2019.calculate_FH2p_perpendicular #0%num (Fin T) (Fin cot_alpha) (Fin Ac) Rc (Fin Hwall) (Fin gamma_beta)
       (Fin gamma_f) (Fin c0) (Fin c1) (Fin rho_water) (Fin g) (Fin cFH)))
  /\ (forall T cot_alpha Ac Bwall Fb gamma_beta gamma_f c0 c1 cFV cFb rho_water g,
     positives (T :: cot_alpha :: Ac :: Bwall :: Fb :: gamma_beta :: gamma_f :: c0 :: c1 :: cFV :: cFb :: rho_water :: g :: nil) ->
     let FV2p := CrestWall2019.calculate_FV2p_perpendicular #0%num (Fin T) (Fin cot_alpha) (Fin Ac) (Fin Bwall) (Fin Fb) (Fin gamma_beta)
       (Fin gamma_f) (Fin c0) (Fin c1) (Fin cFV) (Fin cFb) (Fin rho_water) (Fin g) in
     (Fb <= Ac -> answer_is #0%num FV2p) /\ (Ac < Fb -> number_with positive FV2p)).
Proof.
  assert (R : forall T cot_alpha gamma c0 c1, 0 < T -> 0 < cot_alpha -> 0 < c0 -> 0 < c1 ->
    VanGent2001.calculate_wave_runup_height_zXp #0%num (Fin T) (Fin gamma) (Fin cot_alpha) (Fin c0) (Fin c1) = Fin 0).
  { intros. pose proof PI_RGT_0. cbv beta zeta delta [VanGent2001.calculate_wave_runup_height_zXp CorePhysics.calculate_Iribarren_number_ksi
      CorePhysics.calculate_wave_steepness_s CorePhysics.g_default]. zfin. reflexivity. }
  split; intros; all_positive.
  - unfold CrestWall2019.calculate_FH2p_perpendicular. cbv zeta. zfin. rewrite R by assumption.
    unfold CrestWall2019.calculate_FH2p_perpendicular_from_z2p. cbv zeta. zfin.
    steps. cbn [answer_is answering_num]. f_equal. apply Rmax_right.
    assert (0 < cFH * rho_water * g * Hwall) by rpos. nra.
  - unfold FV2p, CrestWall2019.calculate_FV2p_perpendicular. cbv zeta. zfin. rewrite R by assumption.
    unfold CrestWall2019.calculate_FV2p_perpendicular_from_z2p. cbv zeta. zfin.
    assert (0 < cFV * rho_water * g * Bwall) by rpos. set (w := cFV * rho_water * g * Bwall) in *.
    assert (D : 0 < w * (0.75 * Ac)) by rpos.
    replace (w * - (0.75 * Ac) * (1 - Rpower (Fb / Ac) cFb)) with (w * (0.75 * Ac) * (Rpower (Fb / Ac) cFb - 1)) by ring.
    set (v := w * (0.75 * Ac)) in *.
    split; intros L.
    + apply answer_bind_unit; [clean|]. apply answer_ret. cbn [answer_is answering_num]. f_equal. apply Rmax_right.
      assert (Rpower (Fb / Ac) cFb <= 1).
      { rewrite <- (Rpower_1_base cFb). apply Rle_Rpower_l; [lra|]. split; [rpos|]. apply (Rmult_le_reg_r Ac); [assumption|].
        unfold Rdiv. rewrite Rmult_assoc, Rinv_l by lra. lra. }
      nra.
    + apply number_bind_unit; [clean|]. apply number_ret. eexists. split; [reflexivity|].
      assert (1 < Rpower (Fb / Ac) cFb).
      { rewrite <- (Rpower_1_base cFb). apply Rlt_Rpower_l; [lra|]. split; [lra|]. apply (Rmult_lt_reg_r Ac); [assumption|].
        unfold Rdiv. rewrite Rmult_assoc, Rinv_l by lra. lra. }
      unfold positive. rewrite Rmax_left; nra.
Qed.

(** ** Rear side, Van Gent (2007): no damage with a crest element, no number
    without; no number for the diameter *)
Theorem C85_rear cot_alpha cot_phi gamma T Rc front rear N Dn50 S rho_rock :
  positives (cot_alpha :: cot_phi :: gamma :: T :: Rc :: rear :: N :: Dn50 :: S :: nil) -> rear < Rc -> 0 <= front ->
  let damage := RearVanGent2007.calculate_damage_number_S (Fin cot_alpha) (Fin cot_phi) (Fin gamma) #0%num (Fin T) (Fin Rc) (Fin front)
    (Fin rear) (Fin N) (Fin Dn50) NaN rho_rock in
  (0 < front -> answer_is #0%num damage) /\ (front = 0 -> answer_is NaN damage)
  /\ answer_is NaN (RearVanGent2007.calculate_nominal_rock_diameter_Dn50 (Fin cot_alpha) (Fin cot_phi) (Fin gamma) (Fin S) #0%num (Fin T) (Fin Rc)
       (Fin front) (Fin rear) (Fin N)).
Proof.
  intros K L F damage. all_positive. pose proof PI_RGT_0.
  assert (R : VanGent2001.calculate_wave_runup_height_z1p #0%num (Fin T) (Fin gamma) (Fin cot_alpha) VanGent2001.z1p_c0 VanGent2001.z1p_c1 = Fin 0).
  { cbv beta zeta delta [VanGent2001.calculate_wave_runup_height_z1p VanGent2001.z1p_c0 VanGent2001.z1p_c1
      VanGent2001.calculate_wave_runup_height_zXp CorePhysics.calculate_Iribarren_number_ksi
      CorePhysics.calculate_wave_steepness_s CorePhysics.g_default]. zfin. reflexivity. }
  assert (0 < Rc - rear) by lra. assert (0 < sqrt N) by rpos. assert (0 < 5 * rear / (Rc - rear)) by rpos.
  unfold damage, RearVanGent2007.calculate_damage_number_S, RearVanGent2007.calculate_nominal_rock_diameter_Dn50.
  rewrite R. unfold CorePhysics.check_usage_Dn50_or_M50. cbv zeta. cbn [isnan andb orb negb].
  repeat split; intros.
  - zfin. steps. zfin. reflexivity.
  - subst. zfin. steps. zfin. reflexivity.
  - rewrite sub_0_l. rewrite (npow_neg_nonint (- Rc) 0.8) by (lra || (apply (not_an_int _ 0); dec; lra)).
    zfin. steps. zfin. reflexivity.
Qed.

(** ** Toe berms and cubes *)
Lemma deltas rho_rock rho_water : 0 < rho_water -> rho_water < rho_rock ->
  CorePhysics.calculate_buoyant_density_Delta (Fin rho_rock) (Fin rho_water) = Fin ((rho_rock - rho_water) / rho_water)
  /\ 0 < (rho_rock - rho_water) / rho_water.
Proof. intros. unfold CorePhysics.calculate_buoyant_density_Delta. nfin. split; [reflexivity|rpos]. Qed.

(** Gerding: a stone of negative diameter. *)
Theorem C85_gerding ht h Nod rho_rock rho_water : positives (ht :: Nod :: rho_water :: nil) -> rho_water < rho_rock ->
  answer_is (Fin (- 0.15 * ht)) (Gerding1993.calculate_nominal_diameter_Dn50 #0%num (Fin ht) h (Fin Nod) (Fin rho_rock) (Fin rho_water)).
Proof.
  intros K Hr. all_positive. destruct (deltas rho_rock rho_water) as [E D]; try assumption.
  unfold Gerding1993.calculate_nominal_diameter_Dn50. rewrite E. cbv zeta. zfin. assert (0 < Rpower Nod 0.15) by rpos.
  steps. set (p := Rpower Nod 0.15) in *. clearbody p. cbn [answer_is answering_num]. f_equal. rfield. lra.
Qed.
(** Van der Meer (1988) cubes: no number for the damage.  Etemad-Shahidi (2021)
    toes: infinite damage. *)
Theorem C85_cubes_and_toe_damage :
  (forall Dn s0m rho_water rho_armour N cot_alpha, positives (Dn :: s0m :: rho_water :: N :: nil) -> rho_water < rho_armour ->
     answer_is NaN (Cubes.calculate_damage_Nod_vanDerMeer1988 #0%num (Fin Dn) (Fin s0m) (Fin rho_water) (Fin rho_armour) (Fin N) cot_alpha))
  /\ (forall T h ht Bt m Dn50 rho_rock rho_water g, positives (T :: h :: ht :: Bt :: Dn50 :: rho_water :: g :: nil) -> rho_water < rho_rock ->
     3.7 * m <> 1 ->
     answer_is PInf (EtemadShahidi2021.calculate_damage_Nod #0%num (Fin T) (Fin h) (Fin ht) (Fin Bt) (Fin m) (Fin Dn50) (Fin rho_rock)
       (Fin rho_water) (Fin g) EtemadShahidi2021.c1_d EtemadShahidi2021.c2_d EtemadShahidi2021.c3_d EtemadShahidi2021.c4_d
       EtemadShahidi2021.c5_d EtemadShahidi2021.c6_d EtemadShahidi2021.c7_d)).
Proof.
  split.
  - intros. all_positive. destruct (deltas rho_armour rho_water) as [E D]; try assumption.
    unfold Cubes.calculate_damage_Nod_vanDerMeer1988. rewrite E. unfold CorePhysics.check_usage_stabilitynumber.
    cbv zeta. cbn [CorePhysics.b2n CorePhysics.is_none Nat.add Nat.ltb Nat.leb Nat.eqb]. rewrite bind_ret_l. cbn [fst]. zfin.
    assert (X : - (1) / 6.7 * Rpower N 0.3 < 0) by (assert (0 < Rpower N 0.3) by rpos; dec; lra).
    rewrite npow_neg_nonint by (exact X || (apply (not_an_int _ 2); dec; lra)).
    steps. reflexivity.
  - intros. all_positive. destruct (deltas rho_rock rho_water) as [E D]; try assumption. pose proof PI_RGT_0.
    unfold EtemadShahidi2021.calculate_damage_Nod, CorePhysics.calculate_stability_number_Ns. rewrite E.
    cbv beta delta [EtemadShahidi2021.c1_d EtemadShahidi2021.c2_d EtemadShahidi2021.c3_d EtemadShahidi2021.c4_d EtemadShahidi2021.c5_d
      EtemadShahidi2021.c6_d EtemadShahidi2021.c7_d CorePhysics.calculate_wave_steepness_s]. cbv zeta.
    zfin. apply answer_bind_unit; [apply ToeEtemad.checks|]. apply answer_ret. cbn [answer_is answering_num].
    assert (X : - (1.2) * (1 / 11.2) * Rpower (ht / h) (- (7 / 4)) < 0)
      by (assert (0 < Rpower (ht / h) (- (7 / 4))) by rpos; dec; lra).
    rewrite (nmul_neg_pinf _ X). change (nmul NInf PInf) with NInf.
    destruct (Rdichotomy (1 / (1 - 3.7 * m)) 0) as [L|L].
    { intros Z. apply (Rmult_eq_compat_r (1 - 3.7 * m)) in Z. unfold Rdiv in Z. rewrite Rmult_1_l, Rinv_l in Z by lra. lra. }
    + rewrite nmul_ninf_neg by exact L. apply pow_pinf_pos. lra.
    + rewrite nmul_ninf_pos by exact L. unfold npow.
      rewrite Reqb_false, Rltb_true by lra. rewrite (not_an_int _ 2) by lra. reflexivity.
Qed.

(** Van Gent and Van der Werf (2014): no orbital velocity. *)
Theorem C85_velocity T ht g : positives (T :: ht :: g :: nil) ->
  answer_is #0%num (VanGentVanderWerf2014.calculate_velocity_u_delta #0%num (Fin T) (Fin ht) (Fin g)).
Proof.
  intros K. all_positive. pose proof PI_RGT_0. unfold VanGentVanderWerf2014.calculate_velocity_u_delta. cbv zeta. zfin.
  set (k := 2 * PI / (g / (2 * PI) * T ^ 2)). assert (0 < k) by (unfold k; rpos).
  assert (0 < sinh (k * ht)) by (rewrite <- sinh_0; apply sinh_lt; rpos). zfin. reflexivity.
Qed.

(** "In still water there is no load and no damage" is false: a wall with its
    base above the armour crest is lifted, and a toe is damaged without end. *)
Theorem C85_no_load_refuted :
  (exists T cot_alpha Ac Bwall Fb gamma_beta gamma_f c0 c1 cFV cFb rho_water g,
     positives (T :: cot_alpha :: Ac :: Bwall :: Fb :: gamma_beta :: gamma_f :: c0 :: c1 :: cFV :: cFb :: rho_water :: g :: nil)
     /\ number_with positive (CrestWall2019.calculate_FV2p_perpendicular #0%num (Fin T) (Fin cot_alpha) (Fin Ac) (Fin Bwall) (Fin Fb)
          (Fin gamma_beta) (Fin gamma_f) (Fin c0) (Fin c1) (Fin cFV) (Fin cFb) (Fin rho_water) (Fin g)))
  /\ (exists T h ht Bt m Dn50 rho_rock rho_water g, positives (T :: h :: ht :: Bt :: m :: Dn50 :: rho_water :: g :: nil) /\ rho_water < rho_rock
     /\ answer_is PInf (EtemadShahidi2021.calculate_damage_Nod #0%num (Fin T) (Fin h) (Fin ht) (Fin Bt) (Fin m) (Fin Dn50) (Fin rho_rock)
          (Fin rho_water) (Fin g) EtemadShahidi2021.c1_d EtemadShahidi2021.c2_d EtemadShahidi2021.c3_d EtemadShahidi2021.c4_d
          EtemadShahidi2021.c5_d EtemadShahidi2021.c6_d EtemadShahidi2021.c7_d)).
Proof.
  split.
  - exists 6, 2, 2, 8, 3, 1, 0.45, 1.45, 5, 0.4, 0.5, 1025, 9.81.
    assert (K : positives (6 :: 2 :: 2 :: 8 :: 3 :: 1 :: 0.45 :: 1.45 :: 5 :: 0.4 :: 0.5 :: 1025 :: 9.81 :: nil)) by (repeat constructor; unfold positive; dec; lra).
    split; [exact K|]. destruct C85_crest_wall as [_ W]. apply W; [exact K|lra].
  - exists 6, 10, 5, 2, 0.05, 1, 2650, 1025, 9.81. split; [repeat constructor; unfold positive; dec; lra|]. split; [lra|].
    apply C85_cubes_and_toe_damage; [repeat constructor; unfold positive; dec; lra|lra|dec; lra].
Qed.

(** A breakwater with its crest 1 m above still water and one 1 m below: the
    limits of D'Angremond's formula. *)
Example C85_example :
  answer_is #0.075%num (DAngremond1996.calculate_wave_transmission_Kt_permeable #0 #8 #10 #1 #5 #2 DAngremond1996.C1_permeable true)%num
  /\ answer_is #0.8%num (DAngremond1996.calculate_wave_transmission_Kt_permeable #0 #8 #10 (Fin (-1)) #5 #2 DAngremond1996.C1_permeable true)%num.
Proof.
  assert (K : positives (8 :: 5 :: 2 :: 0.64 :: nil)) by (repeat constructor; unfold positive; dec; lra).
  split; apply C85_dangremond; try exact K; lra.
Qed.
