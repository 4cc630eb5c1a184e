(** C84, where the sign of an answer depends on more than the signs of the
    arguments. *)
From Coq Require Import Reals Lra List Bool String ZArith.
From Verif.Lib Require Import Num Monad RTac NTac.
From Verif.Spec Require Import Numbers.
From Verif.Proofs Require Import Core CheckTac Numbers Runup2001 Weibull.
From Verif.Spec Require Import Waves Runup.
From Verif.Model Require CoreUtility CorePhysics KramerBurcharth2004 VanGentVanderWerf2014 VanGent2001 Cubes Gerding1993
  Scaravaglione2025 EtemadShahidi2021 VanderMeer1988.
From Verif.Props Require RockVdM ToeEtemad.
Open Scope R_scope.

(** ** Always positive *)

(** Kramer and Burcharth: the quadratic in Rc/Dn50 has no root. *)
Theorem C84_kramer Rc rho_armour Dn50 : 1025 < rho_armour -> 0 < Dn50 ->
  number_with positive (KramerBurcharth2004.calculate_significant_wave_height_Hs (Fin Rc) (Fin rho_armour) (Fin Dn50) NaN).
Proof.
  intros Hr HD.
  assert (0 < 0.06 * (Rc / Dn50) ^ 2 - 0.23 * Rc / Dn50 + 1.36).
  { replace (0.23 * Rc / Dn50) with (0.23 * (Rc / Dn50)) by (field; lra). set (x := Rc / Dn50). dec. nra. }
  cbv beta delta [KramerBurcharth2004.calculate_significant_wave_height_Hs CorePhysics.check_usage_Dn50_or_M50
    CorePhysics.calculate_buoyant_density_Delta]. numrun.
Qed.

(** Van Gent (2001): the run-up levels. *)
Theorem C84_vangent2001 H T gamma cot_alpha c0 c1 : positives (H :: T :: gamma :: cot_alpha :: c0 :: c1 :: nil) ->
  number_with positive (VanGent2001.calculate_wave_runup_height_zXp (Fin H) (Fin T) (Fin gamma) (Fin cot_alpha) (Fin c0) (Fin c1))
  /\ number_with positive (VanGent2001.calculate_wave_runup_height_z1p (Fin H) (Fin T) (Fin gamma) (Fin cot_alpha) (Fin c0) (Fin c1))
  /\ number_with positive (VanGent2001.calculate_wave_runup_height_z10p (Fin H) (Fin T) (Fin gamma) (Fin cot_alpha) (Fin c0) (Fin c1))
  /\ number_with positive (VanGent2001.calculate_wave_runup_height_z2p (Fin T) (Fin gamma) (Fin cot_alpha) NaN (Fin H) (Fin c0) (Fin c1))
  /\ number_with positive (VanGent2001.calculate_wave_runup_height_z2p (Fin T) (Fin gamma) (Fin cot_alpha) (Fin H) NaN (Fin c0) (Fin c1)).
Proof.
  intros K. all_positive.
  assert (X : 0 < iribarren g0 H T (1 / cot_alpha)) by (apply iribarren_pos; try apply g0_pos; try assumption; rpos).
  assert (Z : forall c0 c1, 0 < c0 -> 0 < c1 -> number_with positive
    (VanGent2001.calculate_wave_runup_height_zXp (Fin H) (Fin T) (Fin gamma) (Fin cot_alpha) (Fin c0) (Fin c1))).
  { intros a b Ha Hb. rewrite zXp_fin by assumption. pose proof (curve_pos a b _ Ha Hb X).
    eexists. split; [reflexivity|unfold positive; rpos]. }
  repeat split; try (apply Z; assumption);
  unfold VanGent2001.calculate_wave_runup_height_z2p; cbn [isnan andb orb negb]; apply number_ret; apply Z; assumption || (dec; lra).
Qed.

(** Van Gent and Van der Werf (2014). *)
Lemma sinh_positive x : 0 < x -> 0 < sinh x.
Proof. intros. rewrite <- sinh_0. apply sinh_lt. assumption. Qed.
Lemma velocity_positive Hs T ht g : 0 < Hs -> 0 < T -> 0 < ht -> 0 < g ->
  number_with positive (VanGentVanderWerf2014.calculate_velocity_u_delta (Fin Hs) (Fin T) (Fin ht) (Fin g)).
Proof.
  intros. unfold VanGentVanderWerf2014.calculate_velocity_u_delta. cbv zeta. pose proof PI_RGT_0. nfin.
  set (k := 2 * PI / (g / (2 * PI) * T ^ 2)). assert (0 < k) by (unfold k; rpos).
  assert (0 < sinh (k * ht)) by (apply sinh_positive; rpos). numrun.
Qed.
Theorem C84_vangentvanderwerf :
  (forall Hs T ht g, positives (Hs :: T :: ht :: g :: nil) ->
     number_with positive (VanGentVanderWerf2014.calculate_velocity_u_delta (Fin Hs) (Fin T) (Fin ht) (Fin g)))
  /\ (forall Hm0 T ht Bt tt Dn50 rho_rock rho_water cot_alpha g c1 c2 c3 c4 c5,
     positives (Hm0 :: T :: ht :: Bt :: tt :: Dn50 :: rho_water :: g :: c1 :: nil) -> rho_water < rho_rock ->
     number_with positive (VanGentVanderWerf2014.calculate_damage_Nod (Fin Hm0) (Fin T) (Fin ht) (Fin Bt) (Fin tt) (Fin Dn50)
       (Fin rho_rock) (Fin rho_water) cot_alpha (Fin g) (Fin c1) (Fin c2) (Fin c3) (Fin c4) (Fin c5)))
  /\ (forall Hm0 T ht Bt tt Nod rho_rock rho_water cot_alpha g,
     positives (Hm0 :: T :: ht :: Bt :: tt :: Nod :: rho_water :: g :: nil) -> rho_water < rho_rock ->
     number_with positive (VanGentVanderWerf2014.calculate_nominal_diameter_Dn50 (Fin Hm0) (Fin T) (Fin ht) (Fin Bt) (Fin tt) (Fin Nod)
       (Fin rho_rock) (Fin rho_water) cot_alpha (Fin g))).
Proof.
  split; [intros; all_positive; apply velocity_positive; assumption|].
  split; intros; all_positive.
  - destruct (velocity_positive Hm0 T ht g) as (u & Eu & Hu); try assumption. unfold positive in Hu.
    cbv beta delta [VanGentVanderWerf2014.calculate_damage_Nod CorePhysics.calculate_buoyant_density_Delta]. rewrite Eu. numrun.
  - destruct (velocity_positive Hm0 T ht g) as (u & Eu & Hu); try assumption. unfold positive in Hu.
    cbv beta delta [VanGentVanderWerf2014.calculate_nominal_diameter_Dn50 CorePhysics.calculate_buoyant_density_Delta]. rewrite Eu. numrun.
Qed.

(** Van der Meer (1988). *)
Lemma correction_positive N : 0 < N -> number_with positive (VanderMeer1988.calculate_correction_term_gamma_N (Fin N)).
Proof.
  intros H. rewrite (RockVdM.gamma_N_fin N H). pose proof (RockVdM.storm_pos N H).
  eexists. split; [reflexivity|unfold positive; rpos].
Qed.
Theorem C84_vandermeer1988 :
  (forall N, 0 < N -> number_with positive (VanderMeer1988.calculate_correction_term_gamma_N (Fin N)))
  /\ (forall Hs H2p Tm N cot_alpha P rho_armour Dn50 c_pl c_s rho_water,
     positives (Hs :: H2p :: Tm :: N :: cot_alpha :: P :: Dn50 :: c_pl :: c_s :: rho_water :: nil) -> rho_water < rho_armour ->
     number_with positive (VanderMeer1988.calculate_damage_number_S (Fin Hs) (Fin H2p) (Fin Tm) (Fin N) (Fin cot_alpha) (Fin P)
       (Fin rho_armour) (Fin Dn50) NaN (Fin c_pl) (Fin c_s) (Fin rho_water)))
  /\ (forall Hs H2p Tm N cot_alpha P rho_armour S c_pl c_s rho_water,
     positives (Hs :: H2p :: Tm :: N :: cot_alpha :: P :: S :: c_pl :: c_s :: rho_water :: nil) -> rho_water < rho_armour ->
     number_with positive (VanderMeer1988.calculate_nominal_rock_diameter_Dn50 (Fin Hs) (Fin H2p) (Fin Tm) (Fin N) (Fin cot_alpha) (Fin P)
       (Fin rho_armour) (Fin S) (Fin c_pl) (Fin c_s) (Fin rho_water)))
  /\ (forall ratio Tm N cot_alpha P rho_armour S Dn50 c_pl c_s g rho_water,
     positives (ratio :: Tm :: N :: cot_alpha :: P :: S :: Dn50 :: c_pl :: c_s :: g :: rho_water :: nil) -> rho_water < rho_armour ->
     number_with positive (VanderMeer1988.calculate_significant_wave_height_Hs (Fin ratio) (Fin Tm) (Fin N) (Fin cot_alpha) (Fin P)
       (Fin rho_armour) (Fin S) (Fin Dn50) NaN (Fin c_pl) (Fin c_s) (Fin g) (Fin rho_water))).
Proof.
  split; [exact correction_positive|].
  repeat split; intros; all_positive;
  (destruct (correction_positive N) as (y & Ey & Hy); [assumption|]; unfold positive in Hy);
  [unfold VanderMeer1988.calculate_damage_number_S
  |unfold VanderMeer1988.calculate_nominal_rock_diameter_Dn50
  |unfold VanderMeer1988.calculate_significant_wave_height_Hs]; rewrite Ey;
  cbv beta delta [CorePhysics.check_usage_Dn50_or_M50 CorePhysics.calculate_buoyant_density_Delta CorePhysics.calculate_Iribarren_number_ksi
    CorePhysics.calculate_critical_Iribarren_number_ksi_mc CorePhysics.calculate_stability_number_Ns CorePhysics.calculate_wave_steepness_s
    CorePhysics.g_default CorePhysics.two_pi]; timeout 200 numrun.
Qed.

(** ** Positive under a condition *)

(** [x] raised to a power that is not a whole number: positive for positive
    [x], 0 for 0 and not a number for negative [x]. *)
Lemma power_cases x e : 0 < e -> is_int e = false ->
  (0 < x -> number_with positive (npow (Fin x) (Fin e)))
  /\ (x = 0 -> npow (Fin x) (Fin e) = Fin 0) /\ (x < 0 -> npow (Fin x) (Fin e) = NaN).
Proof.
  intros He Hi. repeat split; intros.
  - rewrite npow_fin by assumption. eexists. split; [reflexivity|unfold positive; rpos].
  - subst. apply npow_0_pos. assumption.
  - apply npow_neg_nonint; assumption.
Qed.
Lemma times_sign a b : 0 < b -> (0 < a -> 0 < a * b) /\ (a = 0 -> a * b = 0) /\ (a < 0 -> a * b < 0).
Proof. intros. repeat split; intros; subst; nra. Qed.
Lemma two_and_a_half : is_int (1 / 0.4) = false.
Proof. apply (not_an_int _ 2). dec. lra. Qed.
Lemma two_and_a_half' : is_int (1 / (2 / 5)) = false.
Proof. apply (not_an_int _ 2). lra. Qed.

(** Double layers of cubes, Van der Meer (1988): damage is a number where the
    stability number times s0m^0.1 is at least 1, and only there.  Below, where
    no cube moves, the answer is not 0. *)
Theorem C84_cubes_damage Hs Dn s0m rho_water rho_armour N cot_alpha :
  positives (Hs :: Dn :: s0m :: rho_water :: N :: nil) -> rho_water < rho_armour ->
  let load := Hs / ((rho_armour - rho_water) / rho_water * Dn) * Rpower s0m 0.1 in
  let damage := Cubes.calculate_damage_Nod_vanDerMeer1988 (Fin Hs) (Fin Dn) (Fin s0m) (Fin rho_water) (Fin rho_armour) (Fin N) cot_alpha in
  (1 < load -> number_with positive damage)
  /\ (load = 1 -> number_with (eq 0) damage)
  /\ (load < 1 -> value damage = Ok NaN).
Proof.
  intros K Hr load damage. all_positive.
  assert (E : value damage = Ok (npow (Fin ((load - 1) * (1 / 6.7 * Rpower N 0.3))) (Fin (1 / 0.4)))).
  { unfold damage, Cubes.calculate_damage_Nod_vanDerMeer1988.
    cbv beta delta [CorePhysics.calculate_buoyant_density_Delta CorePhysics.check_usage_stabilitynumber].
    cbv beta zeta iota. nfin. cbn [CorePhysics.b2n CorePhysics.is_none Nat.add Nat.ltb Nat.leb Nat.eqb]. rewrite bind_ret_l. cbn [fst].
    rewrite (value_bind_ok _ _ tt) by clean. cbn [value ret snd]. apply (f_equal Ok).
    nfin. match goal with |- npow (Fin ?a) _ = npow (Fin ?b) _ => replace a with b; [reflexivity|] end.
    unfold load. rewrite Rpower_Ropp. assert (Hp : 0 < Rpower s0m 0.1) by rpos. set (p := Rpower s0m 0.1) in *. set (n := Rpower N 0.3). clearbody p n. rfield. repeat split; try lra. }
  destruct (times_sign (load - 1) (1 / 6.7 * Rpower N 0.3)) as (S1 & S2 & S3); [rpos|].
  destruct (power_cases ((load - 1) * (1 / 6.7 * Rpower N 0.3)) (1 / 0.4)) as (C1 & C2 & C3); [dec; lra|exact two_and_a_half|].
  repeat split; intros L.
  - destruct C1 as (r & Er & Pr); [apply S1; lra|]. exists (Fin r). split; [rewrite E, Er; reflexivity|exists r; auto].
  - exists (Fin 0). rewrite E, C2 by (apply S2; lra). split; [reflexivity|exists 0; auto].
  - rewrite E, C3 by (apply S3; lra). reflexivity.
Qed.

(** Toe berms, Gerding (1993): the diameter and the depth above the toe are
    numbers of either sign. *)
Theorem C84_gerding Hs ht h x rho_rock rho_water Nod :
  positives (Hs :: rho_water :: Nod :: nil) -> rho_water < rho_rock ->
  let Delta := (rho_rock - rho_water) / rho_water in
  number_with (fun Dn50 => 0 < Dn50 <-> 0.24 * Rpower Nod 0.15 * ht < Hs / Delta)
    (Gerding1993.calculate_nominal_diameter_Dn50 (Fin Hs) (Fin ht) h (Fin Nod) (Fin rho_rock) (Fin rho_water))
  /\ (0 < x -> number_with (fun ht => 0 < ht <-> 1.6 * Rpower Nod 0.15 < Hs / (Delta * x))
    (Gerding1993.calculate_depth_above_toe_ht (Fin Hs) (Fin x) h (Fin Nod) (Fin rho_rock) (Fin rho_water))).
Proof.
  intros K Hr Delta. all_positive. assert (0 < Delta) by (unfold Delta; rpos).
  assert (ED : CorePhysics.calculate_buoyant_density_Delta (Fin rho_rock) (Fin rho_water) = Fin Delta).
  { unfold CorePhysics.calculate_buoyant_density_Delta. nfin. reflexivity. }
  assert (PN : 0 < Rpower Nod 0.15) by rpos. split; [|intros Hx].
  - unfold Gerding1993.calculate_nominal_diameter_Dn50. rewrite ED. cbv zeta. nfin. set (p := Rpower Nod 0.15) in *.
    apply number_bind_unit; [clean|]. apply number_ret. eexists. split; [reflexivity|].
    assert (I : 0 < / (p * 1.6)) by (apply Rinv_0_lt_compat; dec; lra). unfold Rdiv at 1.
    destruct (times_sign (Hs / Delta - p * 0.24 * ht) _ I) as (S1 & S2 & S3).
    split; intros L.
    + destruct (Rtotal_order (Hs / Delta - p * 0.24 * ht) 0) as [A|[A|A]]; [pose proof (S3 A)|pose proof (S2 A)|]; lra.
    + apply S1. lra.
  - unfold Gerding1993.calculate_depth_above_toe_ht. rewrite ED. cbv zeta. nfin. set (p := Rpower Nod 0.15) in *.
    apply number_bind_unit; [clean|]. apply number_ret. eexists. split; [reflexivity|].
    replace (x * (Hs / (Delta * x * p) - 1.6) / 0.24) with ((Hs / (Delta * x) - 1.6 * p) * (x / (0.24 * p))) by (rfield; lra).
    assert (I : 0 < x / (0.24 * p)) by rpos.
    destruct (times_sign (Hs / (Delta * x) - 1.6 * p) _ I) as (S1 & S2 & S3).
    split; intros L.
    + destruct (Rtotal_order (Hs / (Delta * x) - 1.6 * p) 0) as [A|[A|A]]; [pose proof (S3 A)|pose proof (S2 A)|]; lra.
    + apply S1. lra.
Qed.

(** Toe berms, Etemad-Shahidi (2021) with its default coefficients: on
    foreshores gentler than 1 in 3.7 damage is a number where the stability
    number is at least 1.2 and only there; on steeper ones where it is at
    most 1.2 and only there. *)
Theorem C84_etemad2021_damage Hs T h ht Bt m Dn50 rho_rock rho_water g :
  positives (Hs :: T :: h :: ht :: Bt :: Dn50 :: rho_water :: g :: nil) -> rho_water < rho_rock -> 3.7 * m <> 1 ->
  let excess := (Hs / ((rho_rock - rho_water) / rho_water * Dn50) - 1.2) * (1 - 3.7 * m) in
  let damage := EtemadShahidi2021.calculate_damage_Nod (Fin Hs) (Fin T) (Fin h) (Fin ht) (Fin Bt) (Fin m) (Fin Dn50) (Fin rho_rock)
    (Fin rho_water) (Fin g) EtemadShahidi2021.c1_d EtemadShahidi2021.c2_d EtemadShahidi2021.c3_d EtemadShahidi2021.c4_d
    EtemadShahidi2021.c5_d EtemadShahidi2021.c6_d EtemadShahidi2021.c7_d in
  (0 < excess -> number_with positive damage)
  /\ (excess = 0 -> number_with (eq 0) damage)
  /\ (excess < 0 -> value damage = Ok NaN).
Proof.
  intros K Hr Hm excess damage. all_positive. pose proof PI_RGT_0.
  assert (Q : exists q, 0 < q /\ value damage = Ok (npow (Fin (excess * q)) (Fin (1 / (2 / 5))))).
  { set (Ns := Hs / ((rho_rock - rho_water) / rho_water * Dn50)) in *.
    assert (EN : CorePhysics.calculate_stability_number_Ns (Fin Hs) (Fin Dn50) (Fin rho_rock) (Fin rho_water) = Fin Ns).
    { cbv beta zeta delta [CorePhysics.calculate_stability_number_Ns CorePhysics.calculate_buoyant_density_Delta]. nfin. reflexivity. }
    destruct (Req_dec (1 - 3.7 * m) 0) as [Z|Z]; [exfalso; lra|].
    assert (0 < (1 - 3.7 * m) ^ 2) by (replace ((1 - 3.7 * m) ^ 2) with (Rsqr (1 - 3.7 * m)) by (unfold Rsqr; ring); apply Rsqr_pos_lt; exact Z).
    exists ((1 / 11.2) * Rpower (ht / h) (- (7 / 4)) * Rpower (2 * PI / g * Hs / T ^ 2) (- (1 / 6)) * Rpower (Bt / Hs) (- (- (1) / 10)) * / (1 - 3.7 * m) ^ 2).
    split; [rpos|].
    unfold damage, EtemadShahidi2021.calculate_damage_Nod. rewrite EN.
    cbv beta delta [EtemadShahidi2021.c1_d EtemadShahidi2021.c2_d EtemadShahidi2021.c3_d EtemadShahidi2021.c4_d EtemadShahidi2021.c5_d
      EtemadShahidi2021.c6_d EtemadShahidi2021.c7_d CorePhysics.calculate_wave_steepness_s]. cbv zeta.
    rewrite (value_bind_ok _ _ tt) by apply ToeEtemad.checks. cbn [value ret snd]. apply (f_equal Ok).
    nfin. match goal with |- npow (Fin ?a) _ = npow (Fin ?b) _ => replace a with b; [reflexivity|] end.
    unfold excess. field. repeat split; dec; lra. }
  destruct Q as (q & Hq & E).
  destruct (times_sign excess q Hq) as (S1 & S2 & S3).
  destruct (power_cases (excess * q) (1 / (2 / 5))) as (C1 & C2 & C3); [lra|exact two_and_a_half'|].
  repeat split; intros L.
  - destruct C1 as (r & Er & Pr); [apply S1; lra|]. exists (Fin r). split; [rewrite E, Er; reflexivity|exists r; auto].
  - exists (Fin 0). rewrite E, C2 by (apply S2; lra). split; [reflexivity|exists 0; auto].
  - rewrite E, C3 by (apply S3; lra). reflexivity.
Qed.

(** Rock slopes, Scaravaglione (2025): the diameter is a number of either
    sign; the diameter of the core stone is subtracted. *)
Theorem C84_scaravaglione_diameter Hm0 T N cot_alpha rho_armour rho_core S Dn50_core c rho_water :
  positives (Hm0 :: T :: N :: cot_alpha :: S :: Dn50_core :: c :: rho_water :: nil) -> rho_water < rho_armour ->
  number_with (fun Dn50 => 0 < Dn50 <->
      Dn50_core < Hm0 / ((rho_armour - rho_water) / rho_water) / c * Rpower (S / sqrt N) (- (0.2)) / sqrt cot_alpha
                  * Rpower (2 * PI / 9.81 * Hm0 / T ^ 2) (- (0.1)))
    (Scaravaglione2025.calculate_nominal_rock_diameter_Dn50 (Fin Hm0) (Fin T) (Fin N) (Fin cot_alpha) (Fin rho_armour) rho_core (Fin S)
       (Fin Dn50_core) NaN (Fin c) (Fin rho_water)).
Proof.
  intros K Hr. all_positive. pose proof PI_RGT_0. assert (0 < sqrt cot_alpha) by rpos. assert (0 < sqrt N) by rpos.
  cbv beta delta [Scaravaglione2025.calculate_nominal_rock_diameter_Dn50 CorePhysics.check_usage_Dn50_or_M50
    CorePhysics.calculate_buoyant_density_Delta CorePhysics.calculate_wave_steepness_s CorePhysics.g_default].
  cbv zeta. cbn [isnan andb orb negb]. nfin. rewrite bind_ret_l. nfin.
  apply number_bind_unit; [clean|]. apply number_ret. eexists. split; [reflexivity|].
  match goal with |- 0 < ?a - _ <-> _ < ?b => replace b with a by (field; repeat split; lra) end. lra.
Qed.

(** ** Not every answer is a positive number *)
Lemma small_power s : 0 < s < 1 -> Rpower s 0.1 < 1.
Proof.
  intros. unfold Rpower. rewrite <- exp_0. apply exp_increasing.
  assert (ln s < 0) by (rewrite <- ln_1; apply ln_increasing; lra). dec. lra.
Qed.

(** "Positive arguments (and stone heavier than water) give a positive answer"
    is false: a toe 10 m below water and a wave of 1 m give a stone of negative
    diameter, a deep core of large stones gives armour of negative diameter, and
    waves too small to move a cube or a toe stone give no number instead of no
    damage. *)
Theorem C84_positive_refuted :
  (exists Hs ht h Nod rho_rock rho_water, positives (Hs :: ht :: h :: Nod :: rho_water :: nil) /\ rho_water < rho_rock
     /\ number_with (fun r => r < 0) (Gerding1993.calculate_nominal_diameter_Dn50 (Fin Hs) (Fin ht) (Fin h) (Fin Nod) (Fin rho_rock) (Fin rho_water)))
  /\ (exists Hs Dn50 h Nod rho_rock rho_water, positives (Hs :: Dn50 :: h :: Nod :: rho_water :: nil) /\ rho_water < rho_rock
     /\ number_with (fun r => r < 0) (Gerding1993.calculate_depth_above_toe_ht (Fin Hs) (Fin Dn50) (Fin h) (Fin Nod) (Fin rho_rock) (Fin rho_water)))
  /\ (exists Hm0 T N cot_alpha rho_armour rho_core S Dn50_core rho_water,
     positives (Hm0 :: T :: N :: cot_alpha :: S :: Dn50_core :: rho_water :: nil) /\ rho_water < rho_armour
     /\ number_with (fun r => r <= 0) (Scaravaglione2025.calculate_nominal_rock_diameter_Dn50 (Fin Hm0) (Fin T) (Fin N) (Fin cot_alpha)
       (Fin rho_armour) (Fin rho_core) (Fin S) (Fin Dn50_core) NaN Scaravaglione2025.c_VGnew_default (Fin rho_water)))
  /\ (exists Hs Dn s0m rho_water rho_armour N cot_alpha, positives (Hs :: Dn :: s0m :: rho_water :: N :: cot_alpha :: nil)
     /\ rho_water < rho_armour
     /\ value (Cubes.calculate_damage_Nod_vanDerMeer1988 (Fin Hs) (Fin Dn) (Fin s0m) (Fin rho_water) (Fin rho_armour) (Fin N) (Fin cot_alpha)) = Ok NaN)
  /\ (exists Hs T h ht Bt m Dn50 rho_rock rho_water g, positives (Hs :: T :: h :: ht :: Bt :: m :: Dn50 :: rho_water :: g :: nil)
     /\ rho_water < rho_rock
     /\ value (EtemadShahidi2021.calculate_damage_Nod (Fin Hs) (Fin T) (Fin h) (Fin ht) (Fin Bt) (Fin m) (Fin Dn50) (Fin rho_rock)
          (Fin rho_water) (Fin g) EtemadShahidi2021.c1_d EtemadShahidi2021.c2_d EtemadShahidi2021.c3_d EtemadShahidi2021.c4_d
          EtemadShahidi2021.c5_d EtemadShahidi2021.c6_d EtemadShahidi2021.c7_d) = Ok NaN).
Proof.
  split; [|split; [|split; [|split]]].
  - exists 1, 10, 12, 1, 2000, 1000. repeat split; [repeat constructor; unfold positive; lra|lra|].
    unfold Gerding1993.calculate_nominal_diameter_Dn50, CorePhysics.calculate_buoyant_density_Delta. cbv zeta. nfin. rewrite !Rpower_1_base.
    apply number_bind_unit; [clean|]. apply number_ret. eexists. split; [reflexivity|]. dec. lra.
  - exists 1, 1, 12, 1, 2000, 1000. repeat split; [repeat constructor; unfold positive; lra|lra|].
    unfold Gerding1993.calculate_depth_above_toe_ht, CorePhysics.calculate_buoyant_density_Delta. cbv zeta. nfin. rewrite !Rpower_1_base.
    apply number_bind_unit; [clean|]. apply number_ret. eexists. split; [reflexivity|]. dec. lra.
  - set (f := 1 / ((2000 - 1000) / 1000) / 3.3 * Rpower (1 / sqrt 1) (- (0.2)) / sqrt 1 * Rpower (2 * PI / 9.81 * 1 / 5 ^ 2) (- (0.1))).
    pose proof PI_RGT_0. assert (0 < f) by (unfold f; assert (0 < sqrt 1) by rpos; rpos).
    exists 1, 5, 1, 1, 2000, 2650, 1, f, 1000. repeat split; [repeat constructor; unfold positive; lra|lra|].
    destruct (C84_scaravaglione_diameter 1 5 1 1 2000 (Fin 2650) 1 f 3.3 1000) as (x & Ex & r & Er & Hr);
      [repeat constructor; unfold positive; dec; lra|lra|]. exists x. split; [exact Ex|]. exists r. split; [exact Er|].
    fold f in Hr. lra.
  - exists 1, 2, 0.03, 1000, 2000, 1000, 1.5. repeat split; [repeat constructor; unfold positive; dec; lra|lra|].
    apply (C84_cubes_damage 1 2 0.03 1000 2000 1000 (Fin 1.5)); [repeat constructor; unfold positive; dec; lra|lra|].
    pose proof (small_power 0.03 ltac:(dec; lra)). assert (0 < Rpower 0.03 0.1) by rpos.
    replace (1 / ((2000 - 1000) / 1000 * 2)) with (1 / 2) by field. lra.
  - exists 1, 6, 10, 5, 2, 0.05, 1, 2000, 1000, 9.81. repeat split; [repeat constructor; unfold positive; dec; lra|lra|].
    apply (C84_etemad2021_damage 1 6 10 5 2 0.05 1 2000 1000 9.81); [repeat constructor; unfold positive; dec; lra|lra|dec; lra|].
    dec. lra.
Qed.

(** Cubes of 1 m and relative density 1 in waves of 2 m, 1 m and 0.5 m with
    steepness 1: damage, no damage, no number. *)
Example C84_example :
  let damage Hs := Cubes.calculate_damage_Nod_vanDerMeer1988 (Fin Hs) (Fin 1) (Fin 1) (Fin 1000) (Fin 2000) (Fin 1000) (Fin 1.5) in
  number_with positive (damage 2) /\ number_with (eq 0) (damage 1) /\ value (damage 0.5) = Ok NaN
  /\ number_with positive (KramerBurcharth2004.calculate_significant_wave_height_Hs (Fin (-1)) (Fin 2650) (Fin 1) NaN).
Proof.
  assert (K : forall Hs, 0 < Hs -> positives (Hs :: 1 :: 1 :: 1000 :: 1000 :: nil)) by (intros; repeat constructor; unfold positive; lra).
  split; [|split; [|split]].
  - apply (C84_cubes_damage 2 1 1 1000 2000 1000 (Fin 1.5)); [apply K; lra|lra|]. rewrite Rpower_1_base. lra.
  - apply (C84_cubes_damage 1 1 1 1000 2000 1000 (Fin 1.5)); [apply K; lra|lra|]. rewrite Rpower_1_base. lra.
  - apply (C84_cubes_damage 0.5 1 1 1000 2000 1000 (Fin 1.5)); [apply K; dec; lra|lra|]. rewrite Rpower_1_base. dec. lra.
  - apply C84_kramer; lra.
Qed.
