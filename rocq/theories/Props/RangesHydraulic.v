(** Property C58 for the overtopping, transmission and set-up formulas: the warnings
    are those of the documented ranges, whatever the arguments (missing and infinite
    ones included). *)
From Coq Require Import Reals Lra List Bool String Arith.
From Verif.Lib Require Import Num Monad RTac NTac.
From Verif.Spec Require Import Ranges Reports.
From Verif.Model Require Import CoreUtility CorePhysics.
From Verif.Model Require Briganti2003 DAngremond1996 DeRidder2024 DeRidder2026 VanGent2021Caisson VanGent2024Setup VanGent2025.
From Verif.Proofs Require Import Core CheckTac Warns Reports.
From Verif.Props Require Import RangesRock.
Import ListNotations.
Open Scope num_scope.

Lemma reports_map ranges m (f : num -> num) : reports_of m ranges -> (forall x, ranges (f x) = ranges x) ->
  reports_of (x <- m ;; ret (f x)) ranges.
Proof.
  intros (x & V & R) E. exists (f x). split; [rewrite value_bind, V; reflexivity|].
  rewrite warns_bind, V. cbn. rewrite app_nil_r, E. exact R.
Qed.

Lemma steepness_of_nan_H T : steepness_of NaN T = NaN.
Proof. rewrite <- steepness_is. apply steepness_nan_H. Qed.
Lemma steepness_of_nan_T H : steepness_of H NaN = NaN.
Proof. rewrite <- steepness_is. apply steepness_nan_T. Qed.
Lemma iribarren_of_nan_H T c : iribarren_of NaN T c = NaN.
Proof. rewrite <- iribarren_is. apply iribarren_nan_H. Qed.
Lemma iribarren_of_nan_T H c : iribarren_of H NaN c = NaN.
Proof. rewrite <- iribarren_is. apply iribarren_nan_T. Qed.
Lemma iribarren_of_nan_c H T : iribarren_of H T NaN = NaN.
Proof. rewrite <- iribarren_is. apply iribarren_nan_c. Qed.
#[local] Hint Rewrite steepness_of_nan_H steepness_of_nan_T iribarren_of_nan_H iribarren_of_nan_T iribarren_of_nan_c : missing.

(** ** Transmission: Briganti et al. (2003), d'Angremond et al. (1996) *)

Theorem C58_briganti : forall H T Rc B cot,
  let F := "Briganti (2003)"%string in
  reports_of (Briganti2003.calculate_wave_transmission_Kt H T Rc B cot)
    (fun _ => [ XRange "Wave steepness s0p" F (steepness_of H T) #0.005 #0.07;
                XRange "Surf similarity parameter ksi_0p" F (iribarren_of H T cot) #0.5 #10 ]).
Proof.
  intros *. unfold Briganti2003.calculate_wave_transmission_Kt, DAngremond1996.calculate_wave_transmission_Kt_permeable. cbn [when]. cbv zeta. rewrite !bind_ret_l.
  rewrite !steepness_is, !iribarren_is.
  destruct (B / H <? #10); rewrite bind_ret_l;
    (apply reports_checked; unfold Briganti2003.check_validity; [mchecks; reflexivity|apply reported_unit; unfold F; reports]).
Qed.

Definition dangremond_ranges (Kt H T h Rc : num) : list xrange :=
  let F := "D'Angremond et al. (1996)"%string in
  [ XRange "Transmission coefficient Kt" F Kt #0.075 #0.8;
    XRange "Wave steepness s0p (dataset limit)" F (steepness_of H T) #0 #0.06;
    XRange "Relative water depth Hsi/h (dataset limit)" F (H / h) #0 #0.54;
    XRange "Relative crest level Rc/Hsi (dataset limit)" F (Rc / H) (- #2.5) #2.5 ].

(** The coefficient is reported before it is limited to 0.075 .. 0.8: its own
    warning comes exactly when it is limited. *)
Theorem C58_dangremond : forall H T h Rc B cot C,
  let raw := - #0.4 * (Rc / H) + npow (B / H) (- #0.31) * (#1 - nexp (- #0.5 * iribarren_of H T cot)) * C in
  reports_of (DAngremond1996.calculate_wave_transmission_Kt_permeable H T h Rc B cot C true) (fun _ => dangremond_ranges raw H T h Rc)
  /\ reports_of (DAngremond1996.calculate_wave_transmission_Kt_impermeable H T h Rc B cot C) (fun _ => dangremond_ranges raw H T h Rc)
  /\ reports_of (DAngremond1996.calculate_wave_transmission_Kt_permeable H T h Rc B cot C false) (fun _ => []).
Proof.
  intros *. assert (G : reports_of (DAngremond1996.calculate_wave_transmission_Kt_permeable H T h Rc B cot C true) (fun _ => dangremond_ranges raw H T h Rc)).
  { unfold DAngremond1996.calculate_wave_transmission_Kt_permeable. cbn [when]. cbv zeta. rewrite !iribarren_is, !steepness_is. fold raw.
    apply reports_checked; unfold DAngremond1996.check_validity; [mchecks; reflexivity|apply reported_unit; unfold dangremond_ranges; reports]. }
  split; [exact G|]. split; [exact G|].
  unfold DAngremond1996.calculate_wave_transmission_Kt_permeable. cbn [when]. cbv zeta. rewrite bind_ret_l. eexists. split; [reflexivity|constructor].
Qed.

(** ** De Ridder et al. (2024) and (2026) *)

Definition deridder24_ranges (H LF Rc : num) : list xrange :=
  let F := "De Ridder et al. (2024)"%string in
  [ XRange "Rc/Hm0" F (Rc / H) #0.80 #3.72; XRange "Hm0_LF/Hm0" F (LF / H) #0.10 #0.81 ].

(** The steepness of the short waves has a range, but needs a wave height that is
    never passed on. *)
Theorem C58_deridder2024 : forall H s LF gf Rc q g,
  reports_of (DeRidder2024.calculate_overtopping_discharge_q_eq24 H s gf Rc g) (fun _ => deridder24_ranges H NaN Rc)
  /\ reports_of (DeRidder2024.calculate_overtopping_discharge_q_eq26 H s LF gf Rc g) (fun _ => deridder24_ranges H LF Rc)
  /\ reports_of (DeRidder2024.calculate_dimensionless_crest_freeboard_discharge_q_eq24 H s gf q g) (fun Rc => deridder24_ranges H NaN (Rc * H))
  /\ reports_of (DeRidder2024.calculate_crest_freeboard_discharge_q_eq24 H s gf q g) (fun Rc => deridder24_ranges H NaN Rc)
  /\ reports_of (DeRidder2024.calculate_crest_freeboard_discharge_q_eq26 H s LF gf q g) (fun Rc => deridder24_ranges H LF Rc).
Proof.
  assert (R : forall H LF T Rc, reported (deridder24_ranges H LF Rc) (warns (DeRidder2024.check_validity_range NaN H NaN LF NaN T Rc NaN NaN NaN))).
  { intros. apply reported_unit. unfold DeRidder2024.check_validity_range, deridder24_ranges. cbn [provided isnan negb andb]. rewrite !andb_false_r. cbn [when andb]. rewrite ?bind_assoc, ?bind_ret_l. reports. }
  assert (V : forall H LF T Rc, value (DeRidder2024.check_validity_range NaN H NaN LF NaN T Rc NaN NaN NaN) = Ok tt).
  { intros. unfold DeRidder2024.check_validity_range. mchecks. reflexivity. }
  assert (Q : forall H s gf q g, reports_of (DeRidder2024.calculate_dimensionless_crest_freeboard_discharge_q_eq24 H s gf q g) (fun Rc => deridder24_ranges H NaN (Rc * H))).
  { intros. apply reports_checked; [apply V|apply R]. }
  intros. split; [|split; [|split; [|split]]].
  - apply reports_map; [|reflexivity]. apply reports_checked; [apply V|apply R].
  - apply reports_map; [|reflexivity]. apply reports_checked; [apply V|apply R].
  - apply Q.
  - unfold DeRidder2024.calculate_crest_freeboard_discharge_q_eq24. destruct (Q H s gf q g_default) as (x & Vx & Rx).
    exists (x * H). split; [rewrite value_bind, Vx; reflexivity|]. rewrite warns_bind, Vx. cbn [fst snd ret warns]. rewrite app_nil_r. exact Rx.
  - apply reports_checked; [apply V|apply R].
Qed.

Definition deridder26_ranges (H LF Rc theta : num) : list xrange :=
  let F := "De Ridder et al. (2026)"%string in
  [ XRange "Rc/Hm0" F (Rc / H) #0.98 #1.94; XRange "Hm0_LF/Hm0" F (LF / H) #0.15 #0.55; XRange "theta" F theta #0 #56 ].

Theorem C58_deridder2026 : forall H s LF gf Rc g theta,
  reports_of (DeRidder2026.calculate_overtopping_discharge_q_eq28 H s gf Rc g theta) (fun _ => deridder26_ranges H NaN Rc theta)
  /\ reports_of (DeRidder2026.calculate_overtopping_discharge_q_eq32 H s LF gf Rc g theta) (fun _ => deridder26_ranges H LF Rc theta).
Proof.
  assert (R : forall H LF T Rc theta, reported (deridder26_ranges H LF Rc theta) (warns (DeRidder2026.check_validity_range NaN H NaN LF NaN T Rc NaN theta))).
  { intros. apply reported_unit. unfold DeRidder2026.check_validity_range, deridder26_ranges. cbn [provided isnan negb andb]. rewrite !andb_false_r. cbn [when andb]. rewrite ?bind_assoc, ?bind_ret_l. reports. }
  assert (V : forall H LF T Rc theta, value (DeRidder2026.check_validity_range NaN H NaN LF NaN T Rc NaN theta) = Ok tt).
  { intros. unfold DeRidder2026.check_validity_range. mchecks. reflexivity. }
  intros. split; (apply reports_map; [|reflexivity]); (apply reports_checked; [apply V|apply R]).
Qed.

(** ** Van Gent (2021), caissons *)

Definition caisson_ranges (H Rc q beta : num) : list xrange :=
  let F := "Van Gent (2021)"%string in
  [ XRange "Dimensionless freeboard Rc/Hm0" F (Rc / H) #1.2 #2.9;
    XRange "Dimensionless overtopping discharge q" F q #0 #0.0012;
    XRange "Incident wave angle beta" F beta #0 #75 ].

(** Whenever there is a result: it is dimensionless in the first and the third case,
    and the discharge is only reported when it is the result. *)
Theorem C58_caisson : forall H Rc q beta gbeta Hsw c csw short crossing parapet g,
  reports_if (VanGent2021Caisson.calculate_dimensionless_overtopping_discharge_q H Rc beta gbeta Hsw c csw short crossing parapet)
    (fun q => caisson_ranges H Rc q beta)
  /\ (forall Q, value (VanGent2021Caisson.calculate_overtopping_discharge_q H Rc beta gbeta Hsw c csw short crossing parapet g) = Ok Q ->
      exists q, Q = q * nsqrt (g * npow H #3)
        /\ reported (caisson_ranges H Rc q beta) (warns (VanGent2021Caisson.calculate_overtopping_discharge_q H Rc beta gbeta Hsw c csw short crossing parapet g)))
  /\ reports_if (VanGent2021Caisson.calculate_dimensionless_crest_freeboard H q beta gbeta Hsw c csw short crossing parapet g)
    (fun Rc => caisson_ranges H (Rc * H) NaN beta)
  /\ reports_if (VanGent2021Caisson.calculate_crest_freeboard_Rc H q beta gbeta Hsw c csw short crossing parapet g)
    (fun Rc => caisson_ranges H Rc NaN beta).
Proof.
  intros *.
  assert (R : forall H Rc q beta, reported (caisson_ranges H Rc q beta) (warns (VanGent2021Caisson.check_validity_range H NaN beta Rc q))).
  { intros. apply reported_unit. unfold VanGent2021Caisson.check_validity_range, caisson_ranges. cbn [provided isnan negb andb]. rewrite !andb_false_r. cbn [when andb]. rewrite ?bind_assoc, ?bind_ret_l. reports. }
  assert (V : forall H Rc q beta, value (VanGent2021Caisson.check_validity_range H NaN beta Rc q) = Ok tt).
  { intros. unfold VanGent2021Caisson.check_validity_range. mchecks. reflexivity. }
  assert (Q1 : reports_if (VanGent2021Caisson.calculate_dimensionless_overtopping_discharge_q H Rc beta gbeta Hsw c csw short crossing parapet) (fun q => caisson_ranges H Rc q beta)).
  { unfold VanGent2021Caisson.calculate_dimensionless_overtopping_discharge_q.
    assert (D : (exists t, VanGent2021Caisson.determine_coefficients c short crossing parapet = ret t) \/ (exists e, VanGent2021Caisson.determine_coefficients c short crossing parapet = raise e)).
    { unfold VanGent2021Caisson.determine_coefficients. repeat match goal with |- context [if ?b then _ else _] => destruct b end; first [left; eexists; reflexivity|right; eexists; reflexivity]. }
    destruct D as [[[[[a b] cb] gp] ->]|[e ->]]; [|intros x E; discriminate]. rewrite bind_ret_l.
    assert (D : (exists t, VanGent2021Caisson.swell_coefficient crossing csw Hsw = ret t) \/ (exists e, VanGent2021Caisson.swell_coefficient crossing csw Hsw = raise e)).
    { unfold VanGent2021Caisson.swell_coefficient. repeat match goal with |- context [if ?b then _ else _] => destruct b end; first [left; eexists; reflexivity|right; eexists; reflexivity]. }
    destruct D as [[t ->]|[e ->]]; [|intros x E; discriminate]. rewrite bind_ret_l. cbv zeta.
    apply reports_if_checked; [apply V|apply R]. }
  assert (Q2 : reports_if (VanGent2021Caisson.calculate_dimensionless_crest_freeboard H q beta gbeta Hsw c csw short crossing parapet g) (fun Rc => caisson_ranges H (Rc * H) NaN beta)).
  { unfold VanGent2021Caisson.calculate_dimensionless_crest_freeboard.
    assert (D : (exists t, VanGent2021Caisson.determine_coefficients c short crossing parapet = ret t) \/ (exists e, VanGent2021Caisson.determine_coefficients c short crossing parapet = raise e)).
    { unfold VanGent2021Caisson.determine_coefficients. repeat match goal with |- context [if ?b then _ else _] => destruct b end; first [left; eexists; reflexivity|right; eexists; reflexivity]. }
    destruct D as [[[[[a b] cb] gp] ->]|[e ->]]; [|intros x E; discriminate]. rewrite bind_ret_l.
    assert (D : (exists t, VanGent2021Caisson.swell_coefficient crossing csw Hsw = ret t) \/ (exists e, VanGent2021Caisson.swell_coefficient crossing csw Hsw = raise e)).
    { unfold VanGent2021Caisson.swell_coefficient. repeat match goal with |- context [if ?b then _ else _] => destruct b end; first [left; eexists; reflexivity|right; eexists; reflexivity]. }
    destruct D as [[t ->]|[e ->]]; [|intros x E; discriminate]. rewrite bind_ret_l. cbv zeta.
    apply reports_if_checked; [apply V|apply R]. }
  split; [exact Q1|]. split; [|split; [exact Q2|]].
  - unfold VanGent2021Caisson.calculate_overtopping_discharge_q. intros Q E. rewrite value_bind in E.
    destruct (value _) as [x|] eqn:Vx in E; [|discriminate]. injection E as <-. exists x. split; [reflexivity|].
    rewrite warns_bind, Vx. cbn [fst snd ret warns]. rewrite app_nil_r. apply Q1. exact Vx.
  - unfold VanGent2021Caisson.calculate_crest_freeboard_Rc. intros Q E. rewrite value_bind in E.
    destruct (value _) as [x|] eqn:Vx in E; [|discriminate]. injection E as <-.
    rewrite warns_bind, Vx. cbn [fst snd ret warns]. rewrite app_nil_r. apply Q2. exact Vx.
Qed.

(** ** Van Gent (2024), set-up *)

(** The crest width and the stone diameter have ranges but are never passed on. *)
Theorem C58_setup : forall H T Rc hc,
  let F := "Van Gent (2024)"%string in
  reports_of (VanGent2024Setup.calculate_structure_induced_setup_delta_impermeable H T Rc)
    (fun _ => [ XRange "Wave steepness sm-1,0" F (steepness_of H T) #0.01 #0.04;
                XRange "Dimensionless freeboard Rc/Hm0" F (Rc / H) (- #1) #0 ])
  /\ reports_of (VanGent2024Setup.calculate_structure_induced_setup_delta_permeable H T Rc hc)
    (fun _ => [ XRange "Wave steepness sm-1,0" F (steepness_of H T) #0.008 #0.04;
                XRange "Dimensionless freeboard Rc/Hm0" F (Rc / H) (- #0.8) #0;
                XRange "Dimensionless submerged structure height hc/Hm0" F (hc / H) #1.5 #3 ]).
Proof.
  intros *. split; (apply reports_map; [|reflexivity]).
  - apply reports_checked; unfold VanGent2024Setup.check_validity_range; cbv zeta; rewrite ?andb_false_r; cbn [when provided isnan negb]; rewrite ?andb_false_r; cbn [when]; rewrite ?bind_ret_l.
    + mchecks. reflexivity.
    + rewrite steepness_is. apply reported_unit. unfold F. rewrite ?bind_assoc, ?bind_ret_l. reports.
  - apply reports_checked; unfold VanGent2024Setup.check_validity_range; cbv zeta; cbn [when provided isnan negb]; rewrite ?andb_false_r; cbn [when]; rewrite ?bind_ret_l.
    + mchecks. reflexivity.
    + rewrite steepness_is. apply reported_unit. unfold F. rewrite ?bind_assoc, ?bind_ret_l. do 3 (apply reported_when; [nan_guard|]).
      rewrite ndiv_nan_l. destruct (provided H && provided hc)%bool; cbn [when]; rewrite ?bind_ret_l; [|constructor].
      rewrite check_seq. cbn. constructor.
Qed.

(** ** Van Gent et al. (2025) *)

Definition overtopping2025_ranges (H T cot Rc Ac B db Dn beta : num) : list xrange :=
  let F := "Van Gent et al. (2025)"%string in
  let berm x := if provided Rc then x else NaN in
  [ XRange "Cotangent alpha slope" F cot #1.5 #8;
    XRange "Wave steepness sm-1,0" F (steepness_of H T) #0.001 #0.042;
    XRange "Iribarren number ksi_m-1,0" F (iribarren_of H T cot) #0.05 #6;
    XRange "Non-dimensional crest freeboard Rc / Hm0" F (Rc / H) #0.6 #5;
    XRange "Non-dimensional stone diameter Dn50 / Hm0" F (Dn / H) #0.12 #0.9;
    XRange "Non-dimensional protruding part of crest wall (Rc - Ac) / Hm0" F ((Rc - Ac) / H) #0 #0.68;
    XRange "Non-dimensional Berm width B / Hm0" F (berm B / H) #0.6 #5;
    XRange "Non-dimensional Berm height db / Hm0" F (berm db / H) (- #1.7) #0.5;
    XRange "Incident wave angle beta" F beta #0 #75 ].

(** The berm is only looked at when the freeboard is known; the water depth, the
    deep-water waves and the width of the crest are never passed on. *)
Theorem C58_overtopping2025 : forall H Hsw T Rc q Ac cot beta B db Dn gf gb gv gbe g design wind max_iter tol,
  (forall r, value (VanGent2025.calculate_overtopping_discharge_q H Hsw T Rc Ac cot beta B db Dn gf gb gv gbe g design wind) = Ok r ->
     reported (overtopping2025_ranges H T cot Rc Ac B db Dn beta) (warns (VanGent2025.calculate_overtopping_discharge_q H Hsw T Rc Ac cot beta B db Dn gf gb gv gbe g design wind)))
  /\ (forall r b, value (VanGent2025.calculate_dimensionless_crest_freeboard H Hsw T q Ac cot beta B db Dn gf gb gv gbe g design wind max_iter tol) = Ok (r, b) ->
     reported (overtopping2025_ranges H T cot (r * H) Ac B db Dn beta) (warns (VanGent2025.calculate_dimensionless_crest_freeboard H Hsw T q Ac cot beta B db Dn gf gb gv gbe g design wind max_iter tol)))
  /\ (forall Rc b, value (VanGent2025.calculate_crest_freeboard_Rc H Hsw T q Ac cot beta B db Dn gf gb gv gbe design wind) = Ok (Rc, b) ->
     reported (overtopping2025_ranges H T cot Rc Ac B db Dn beta) (warns (VanGent2025.calculate_crest_freeboard_Rc H Hsw T q Ac cot beta B db Dn gf gb gv gbe design wind))).
Proof.
  intros *.
  assert (R : forall Rc, reported (overtopping2025_ranges H T cot Rc Ac B db Dn beta) (warns (VanGent2025.check_validity_range H NaN T beta NaN cot Dn Rc Ac NaN B db))).
  { clear Rc. intros Rc. apply reported_unit. unfold VanGent2025.check_validity_range, overtopping2025_ranges. rewrite <- steepness_is, <- iribarren_is. cbv zeta.
    cbn [provided isnan negb andb]. rewrite !andb_false_r. cbn [when andb]. rewrite ?bind_assoc, ?bind_ret_l.
    destruct (provided Rc) eqn:PR.
    - reports.
    - rewrite (provided_false _ PR). rewrite !andb_false_r. cbn [when andb]. rewrite !bind_ret_l.
      do 3 (rewrite ?bind_assoc; apply reported_when; [nan_guard|]).
      apply reported_in; [rewrite ndiv_nan_l; apply nan_in|].
      rewrite ?bind_assoc; apply reported_when; [nan_guard|].
      do 3 (apply reported_in; [cbn [nsub]; rewrite ?ndiv_nan_l; apply nan_in|]). reports. }
  assert (V : forall Rc, value (VanGent2025.check_validity_range H NaN T beta NaN cot Dn Rc Ac NaN B db) = Ok tt).
  { intros. unfold VanGent2025.check_validity_range. mchecks. reflexivity. }
  assert (FF : (exists f, VanGent2025.factor_f H T Dn gf = ret f) \/ (exists e, VanGent2025.factor_f H T Dn gf = raise e)).
  { unfold VanGent2025.factor_f. repeat match goal with |- context [if isnan ?b then _ else _] => destruct (isnan b) end; first [left; eexists; reflexivity|right; eexists; reflexivity]. }
  assert (Q : forall g max_iter tol r b, value (VanGent2025.calculate_dimensionless_crest_freeboard H Hsw T q Ac cot beta B db Dn gf gb gv gbe g design wind max_iter tol) = Ok (r, b) ->
     reported (overtopping2025_ranges H T cot (r * H) Ac B db Dn beta) (warns (VanGent2025.calculate_dimensionless_crest_freeboard H Hsw T q Ac cot beta B db Dn gf gb gv gbe g design wind max_iter tol))).
  { clear g max_iter tol. intros g max_iter tol r b. unfold VanGent2025.calculate_dimensionless_crest_freeboard. destruct FF as [[f ->]|[e ->]]; [|discriminate].
    cbv zeta. rewrite bind_ret_l. intros E. rewrite value_bind, V in E. cbn [value snd ret] in E.
    match type of E with Ok (?x, _) = _ => set (y := x) in * end. injection E as <- _. rewrite warns_bind, V. cbn [fst snd ret warns]. rewrite app_nil_r. apply R. }
  split; [|split].
  - intros r. unfold VanGent2025.calculate_overtopping_discharge_q, VanGent2025.calculate_dimensionless_overtopping_discharge_q. cbv zeta.
    destruct FF as [[f ->]|[e ->]]; [|discriminate]. rewrite bind_ret_l, bind_assoc. intros _. rewrite warns_bind, V, bind_ret_l. cbn [fst snd ret warns]. rewrite app_nil_r. apply R.
  - apply Q.
  - intros r b. unfold VanGent2025.calculate_crest_freeboard_Rc. intros E. rewrite value_bind in E.
    destruct (value _) as [[x b']|] eqn:Vx in E; [|discriminate]. injection E as <- _. rewrite warns_bind, Vx. cbn [fst snd ret warns]. rewrite app_nil_r. eapply Q. exact Vx.
Qed.

(** Without a wave period only the freeboard is reported. *)
Example C58_hydraulic_example :
  warns (VanGent2024Setup.calculate_structure_induced_setup_delta_impermeable #1 NaN #0.5)
  = [ WRange "Dimensionless freeboard Rc/Hm0" "Van Gent (2024)" (#0.5 / #1) (- #1) #0 ].
Proof.
  destruct (C58_setup #1 NaN #0.5 NaN) as ((x & _ & R) & _). rewrite steepness_of_nan_T in R.
  inversion R as [|? ? ? ? ? ? ? _ R1|? ? ? ? ? ? ? N _]; subst; [|apply nan_in in N; contradiction].
  inversion R1 as [|? ? ? ? ? ? ? N _|? ? ? ? ? ? ? _ R2]; subst.
  - exfalso. apply N. change (out_of_range (#0.5 / #1) (- #1) #0). right. rewrite ndiv_fin by lra. unfold below. lra.
  - inversion R2. reflexivity.
Qed.
