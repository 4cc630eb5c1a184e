(** Property C58 for the toe formulas: the warnings are those of the documented
    ranges, whatever the arguments (missing and infinite ones included). *)
From Coq Require Import Reals Lra List Bool String.
From Verif.Lib Require Import Num Monad RTac NTac.
From Verif.Spec Require Import Ranges Reports.
From Verif.Model Require Import CoreUtility CorePhysics.
From Verif.Model Require Gerding1993 VanderMeer1998 VanGentVanderWerf2014 EtemadShahidi2021 Takahashi1990.
From Verif.Proofs Require Import Core CheckTac Warns Reports.
Import ListNotations.
Open Scope num_scope.

(** ** Gerding (1993) *)

Definition gerding_ranges (ht h Dn50 : num) : list xrange :=
  [ XRange "Relative toe height (h)" "Gerding (1993)" (ht / h) #0.4 #0.9;
    XRange "Relative toe height (Dn50)" "Gerding (1993)" (ht / Dn50) #3 #25 ].

Theorem C58_gerding : forall Hs ht h Dn50 Nod rs rw,
  reports_of (Gerding1993.calculate_damage_Nod Hs ht h Dn50 rs rw) (fun _ => gerding_ranges ht h Dn50)
  /\ reports_of (Gerding1993.calculate_nominal_diameter_Dn50 Hs ht h Nod rs rw) (fun Dn50 => gerding_ranges ht h Dn50)
  /\ reports_of (Gerding1993.calculate_wave_height_Hs Dn50 ht h Nod rs rw) (fun _ => gerding_ranges ht h Dn50)
  /\ reports_of (Gerding1993.calculate_depth_above_toe_ht Hs Dn50 h Nod rs rw) (fun ht => gerding_ranges ht h Dn50).
Proof.
  assert (R : forall ht h D, reported (gerding_ranges ht h D) (warns (Gerding1993.check_validity ht h D))).
  { intros. apply reported_unit. unfold Gerding1993.check_validity, gerding_ranges. reports. }
  assert (V : forall ht h D, value (Gerding1993.check_validity ht h D) = Ok tt).
  { intros. unfold Gerding1993.check_validity. mchecks. reflexivity. }
  intros. repeat split; apply reports_checked; auto.
Qed.

(** ** Van der Meer (1998) *)

(** The last range is meant for Hs/(Delta Dn50) (see C52_stability_check_refuted);
    this is the quantity that is checked. *)
Definition vandermeer1998_ranges (Hs ht h Dn50 Nod Delta : num) : list xrange :=
  [ XRange "Relative toe height (h)" "van der Meer (1998)" Hs #0.01 #20;
    XRange "Relative toe height (Dn50)" "van der Meer (1998)" (ht / h) #0.4 #0.9;
    XRange "Relative toe height (Dn50)" "van der Meer (1998)" (ht / Dn50) #3 #25;
    XRange "Nod vs Ns" "van der Meer (1998)" (npow Nod (- #0.15) * (Hs / Delta * Dn50)) #2 PInf ].

Lemma damage_missing : npow NaN (- #0.15) = NaN.
Proof. replace (- #0.15) with (Fin (- (0.15))%R) by reflexivity. apply npow_nan_l. lra. Qed.
#[local] Hint Rewrite damage_missing : missing.

Theorem C58_vandermeer1998 : forall Hs ht h Dn50 Nod rs rw,
  let Delta := (rs - rw) / rw in
  reports_of (VanderMeer1998.calculate_damage_Nod Hs ht h Dn50 rs rw) (fun Nod => vandermeer1998_ranges Hs ht h Dn50 Nod Delta)
  /\ reports_of (VanderMeer1998.calculate_nominal_diameter_Dn50 Hs ht h Nod rs rw) (fun Dn50 => vandermeer1998_ranges Hs ht h Dn50 Nod Delta)
  /\ reports_of (VanderMeer1998.calculate_wave_height_Hs Dn50 ht h Nod rs rw) (fun Hs => vandermeer1998_ranges Hs ht h Dn50 Nod Delta)
  /\ reports_of (VanderMeer1998.calculate_depth_above_toe_ht Hs Dn50 h Nod rs rw) (fun ht => vandermeer1998_ranges Hs ht h Dn50 Nod Delta).
Proof.
  assert (R : forall H ht h D N De, reported (vandermeer1998_ranges H ht h D N De) (warns (VanderMeer1998.check_validity H ht h D N De))).
  { intros. apply reported_unit. unfold VanderMeer1998.check_validity, vandermeer1998_ranges. reports. }
  assert (V : forall H ht h D N De, value (VanderMeer1998.check_validity H ht h D N De) = Ok tt).
  { intros. unfold VanderMeer1998.check_validity. mchecks. reflexivity. }
  intros. repeat split; apply reports_checked; try apply V; apply R.
Qed.

(** ** Van Gent & Van der Werf (2014) *)

Definition toe2014_ranges (Hs tt ht cot : num) : list xrange :=
  let F := "van Gent & van der Werf (2014)"%string in
  [ XRange "Armour slope cot_alpha_armour_slope" F cot #1.5 #4;
    XRange "Armour slope cot_alpha_armour_slope, closer to 1:4 more inaccuracies are found" F cot #1.5 #2;
    XRange "Relative toe height tt/h" F (tt / (ht + tt)) #0.1 #0.3;
    XRange "Relative water depth h/Hs" F ((ht + tt) / Hs) #1.2 #4.5 ].

Theorem C58_toe2014 : forall H T ht Bt tt D N rs rw cot g c1 c2 c3 c4 c5,
  reports_of (VanGentVanderWerf2014.calculate_damage_Nod H T ht Bt tt D rs rw cot g c1 c2 c3 c4 c5) (fun _ => toe2014_ranges H tt ht cot)
  /\ reports_of (VanGentVanderWerf2014.calculate_nominal_diameter_Dn50 H T ht Bt tt N rs rw cot g) (fun _ => toe2014_ranges H tt ht cot).
Proof.
  assert (R : forall H tt ht cot, reported (toe2014_ranges H tt ht cot) (warns (VanGentVanderWerf2014.check_validity H tt ht cot))).
  { intros. apply reported_unit. unfold VanGentVanderWerf2014.check_validity, toe2014_ranges. cbv zeta. reports. }
  assert (V : forall H tt ht cot, value (VanGentVanderWerf2014.check_validity H tt ht cot) = Ok Datatypes.tt).
  { intros. unfold VanGentVanderWerf2014.check_validity. cbv zeta. mchecks. reflexivity. }
  intros. split; apply reports_checked; auto.
Qed.

(** ** Etemad-Shahidi et al. (2021) *)

(** All documented ranges but the one of the wave steepness. *)
Definition etemad2021_ranges (Hs h ht Bt Dn50 m Nod rs rw : num) : list xrange :=
  let F := "Etemad-Shahidi et al. (2021)"%string in
  [ XRange "Relative water depth above the toe ht/h" F (ht / h) #0.39 #0.88;
    XRange "Relative water depth above the toe ht/Hs" F (ht / Hs) #0.48 #2.58;
    XRange "Relative water depth above the toe ht/Dn50" F (ht / Dn50) #1.97 #23.40;
    XRange "Relative toe width Bt/Hs" F (Bt / Hs) #0.17 #1.92;
    XRange "Relative water depth h/Hs" F (h / Hs) #1.22 #3;
    XRange "Stability number Ns" F (Hs / ((rs - rw) / rw * Dn50)) #1.58 #10;
    XRange "Buoyant density Delta" F ((rs - rw) / rw) #1.65 #1.75;
    XRange "Foreshore slope m" F m #0.02 #0.10;
    XRange "Damage parameter Nod" F Nod #0.5 #3.79 ].

(** The damage and the diameter are only checked for the relative depth above the
    toe: of the eleven documented ranges, ten are never reported. *)
Theorem C58_etemad2021 : forall H T h ht Bt m D N rs rw g c1 c2 c3 c4 c5 c6 c7,
  let ranges := [ XRange "Relative water depth above the toe ht/Hs" "Etemad-Shahidi et al. (2021)" (ht / H) #0.48 #2.58 ] in
  reports_of (EtemadShahidi2021.calculate_damage_Nod H T h ht Bt m D rs rw g c1 c2 c3 c4 c5 c6 c7) (fun _ => ranges)
  /\ reports_of (EtemadShahidi2021.calculate_nominal_diameter_Dn50 H T h ht Bt N m rs rw g c1 c2 c3 c4 c5 c6 c7) (fun _ => ranges).
Proof.
  intros H T h ht Bt m D N rs rw g c1 c2 c3 c4 c5 c6 c7 ranges.
  assert (E : EtemadShahidi2021.check_validity_Hs_ht H ht
    = (when (provided H && provided ht) (check "Relative water depth above the toe ht/Hs" "Etemad-Shahidi et al. (2021)" (ht / H) #0.48 #2.58) ;; ret tt)).
  { unfold EtemadShahidi2021.check_validity_Hs_ht, EtemadShahidi2021.check_validity. cbn [provided isnan negb].
    rewrite !andb_false_r. cbn [andb when]. rewrite !bind_ret_l.
    destruct (provided H && provided ht); cbn [when]; rewrite ?bind_ret_l; [|reflexivity]. f_equal. }
  split; apply reports_checked; rewrite E; [mchecks; reflexivity|unfold ranges; reports|mchecks; reflexivity|unfold ranges; reports].
Qed.

(** The check itself covers the others, but fails as soon as it is given both the
    wave height and the period; the toe width is only looked at together with the
    depth above the toe. *)
Theorem C58_etemad2021_check : forall H T h ht Bt D m N cot rs rw,
  let slope := XRange "Armour slope cot_alpha_armour_slope" "Etemad-Shahidi et al. (2021)" cot #1.5 #2 in
  let run := EtemadShahidi2021.check_validity H T h ht Bt D m N cot rs rw in
  (H <> NaN /\ T <> NaN -> value run = Err TypeError /\ reported [slope] (warns run))
  /\ (H = NaN \/ T = NaN -> value run = Ok tt
      /\ reported (slope :: etemad2021_ranges H h ht (if provided ht then Bt else NaN) D m N rs rw) (warns run)).
Proof.
  intros H T h ht Bt D m N cot rs rw slope run. split.
  - intros [NH NT]. unfold run, EtemadShahidi2021.check_validity.
    replace (provided H) with true by (destruct H; reflexivity || congruence). replace (provided T) with true by (destruct T; reflexivity || congruence).
    cbn [andb]. split.
    + rewrite value_bind, value_when_check. reflexivity.
    + unfold slope. apply reported_when; [nan_guard|]. cbn. constructor.
  - intros K. unfold run, EtemadShahidi2021.check_validity.
    assert (G : (provided H && provided T)%bool = false) by (destruct K as [-> | ->]; [reflexivity|apply andb_false_r]).
    rewrite G. cbn [when]. split.
    + rewrite value_bind, value_when_check, bind_ret_l. cbv zeta. mchecks. reflexivity.
    + apply reported_unit. unfold slope, etemad2021_ranges, calculate_stability_number_Ns, calculate_buoyant_density_Delta. cbv zeta.
      destruct (provided ht) eqn:PT; [|rewrite (provided_false _ PT); rewrite !andb_false_r].
      * reports.
      * cbn [when andb]. rewrite !bind_ret_l, bind_assoc. apply reported_when; [nan_guard|].
        do 4 (apply reported_in; [rewrite ?ndiv_nan_l; apply nan_in|]). reports.
Qed.

(** ** Takahashi et al. (1990) *)

Lemma nmax_above x : ~ out_of_range (nmax #1.8 x) #0 PInf.
Proof.
  unfold out_of_range, below, nmax. destruct x as [r| | |]; unfold nlt, nle; try (cbn; intros [K|K]; (tauto || lra)). cbn. destruct (Rltb_spec r 1.8), (Rltb_spec 1.8 r); cbn; intros [K|K]; try tauto; try lra.
Qed.

(** The stability number has a range that it cannot leave; only a negative width of
    the toe is reported. *)
Theorem C58_takahashi : forall disper Hs Tp hacc Bt rs rw beta g,
  let ranges := [ XRange "Toe width Bt" "Takahashi et al (1990)" Bt #0 PInf ] in
  reports_of (Takahashi1990.calculate_stability_number_Ns disper Hs Tp hacc Bt beta g) (fun _ => ranges)
  /\ reports_of (Takahashi1990.calculate_nominal_diameter_Dn50 disper Hs Tp hacc Bt rs rw beta g) (fun _ => ranges).
Proof.
  intros *. cbv zeta.
  assert (R : forall x, reported [XRange "Toe width Bt" "Takahashi et al (1990)" Bt #0 PInf] (warns (Takahashi1990.check_validity (nmax #1.8 x) Bt))).
  { intros x. assert (G : reported [XRange "Stability number Ns" "Takahashi et al (1990)" (nmax #1.8 x) #0 PInf; XRange "Toe width Bt" "Takahashi et al (1990)" Bt #0 PInf] (warns (Takahashi1990.check_validity (nmax #1.8 x) Bt))).
    { apply reported_unit. unfold Takahashi1990.check_validity. reports. }
    inversion G; subst; [assumption|]. exfalso. eapply nmax_above. eassumption. }
  assert (V : forall x, value (Takahashi1990.check_validity (nmax #1.8 x) Bt) = Ok tt).
  { intros. unfold Takahashi1990.check_validity. mchecks. reflexivity. }
  assert (N : exists x, Takahashi1990.calculate_stability_number_Ns disper Hs Tp hacc Bt beta g = (Takahashi1990.check_validity (nmax #1.8 x) Bt ;; ret (nmax #1.8 x))).
  { unfold Takahashi1990.calculate_stability_number_Ns. cbv zeta. eexists. reflexivity. }
  destruct N as [x N]. split.
  - rewrite N. apply reports_checked; auto.
  - unfold Takahashi1990.calculate_nominal_diameter_Dn50. rewrite N. pose proof (V x) as Vx. pose proof (R x) as Rx.
    destruct (Takahashi1990.check_validity (nmax #1.8 x) Bt) as [w [[]|e]]; [|discriminate]. cbn in Rx.
    eexists. split; [reflexivity|]. cbn. rewrite !app_nil_r. exact Rx.
Qed.

(** A toe in shallow water: a relative depth of 0.95 and of 2 diameters. *)
Example C58_example :
  warns (Gerding1993.calculate_damage_Nod #2 #3.8 #4 #1.9 #2650 #1025)
  = [ WRange "Relative toe height (h)" "Gerding (1993)" (#3.8 / #4) #0.4 #0.9;
      WRange "Relative toe height (Dn50)" "Gerding (1993)" (#3.8 / #1.9) #3 #25 ].
Proof.
  destruct (C58_gerding #2 #3.8 #4 #1.9 NaN #2650 #1025) as ((x & _ & R) & _).
  inversion R as [|? ? ? ? ? ? ? N _|? ? ? ? ? ? ? _ R1]; subst.
  - exfalso. apply N. change (out_of_range (#3.8 / #4) #0.4 #0.9). right. rewrite ndiv_fin by lra. unfold below. lra.
  - inversion R1 as [|? ? ? ? ? ? ? N _|? ? ? ? ? ? ? _ R2]; subst.
    + exfalso. apply N. change (out_of_range (#3.8 / #1.9) #3 #25). left. rewrite ndiv_fin by lra. unfold below. lra.
    + inversion R2. reflexivity.
Qed.
