(** Properties C33-C36 and C60: wave loads on caissons, Goda (1985). *)
From Coq Require Import Reals Lra List Bool String.
From Verif.Lib Require Import Num Monad RTac NTac Integral.
From Verif.Spec Require Import Waves Ranges Reports Dispersion Caisson.
From Verif.Model Require Import CoreUtility CorePhysics Numpy Goda1985.
From Verif.Proofs Require Import Core CheckTac Warns Reports Dispersion Goda.
Import ListNotations.
Open Scope R_scope.

Notation pressures_of := calculate_pressures_and_forces_tuple.
Notation reactions_of := calculate_forces_and_reactions_tuple.

Lemma sinh_gt x : 0 < x -> x < sinh x.
Proof.
  intros Hx.
  set (f := fun t => sinh t - t).
  assert (D : forall t, derivable_pt_lim f t (cosh t - 1)).
  { intros t. unfold f. apply (derivable_pt_lim_minus sinh id); [apply derivable_pt_lim_sinh|apply derivable_pt_lim_id]. }
  set (pr := (fun t => exist _ (cosh t - 1) (D t)) : derivable f).
  assert (C1 : forall t, 0 < t -> 1 < cosh t).
  { intros t Ht. unfold cosh. pose proof (exp_ineq1 t ltac:(lra)). pose proof (exp_ineq1 (- t) ltac:(lra)). lra. }
  assert (f 0 < f x).
  { destruct (MVT_cor1 f 0 x pr Hx) as (c & E & Hc). change (derive_pt f c (pr c)) with (cosh c - 1) in E.
    pose proof (C1 c ltac:(lra)). assert (0 < (cosh c - 1) * (x - 0)) by (apply Rmult_lt_0_compat; lra). lra. }
  unfold f in H. rewrite sinh_0 in H. lra.
Qed.

Lemma alpha1_range k h : 0 < k -> 0 < h -> 0.6 < goda_alpha1 k h < 1.1.
Proof.
  intros. assert (0 < 2 * k * h) by (assert (0 < k * h) by (apply Rmult_lt_0_compat; assumption); lra).
  unfold goda_alpha1. set (x := 2 * k * h) in *. pose proof (sinh_gt x H1). 
  assert (0 < x / sinh x < 1).
  { split; [apply Rdiv_lt_0_compat; lra|]. apply (Rmult_lt_reg_r (sinh x)); [lra|]. replace (x / sinh x * sinh x) with x by (field; lra). lra. }
  set (y := x / sinh x) in *. assert (0 < y ^ 2 < 1) by (split; nra). lra.
Qed.

Lemma cosh_gt_1 x : 0 < x -> 1 < cosh x.
Proof. intros. unfold cosh. pose proof (exp_ineq1 x ltac:(lra)). pose proof (exp_ineq1 (- x) ltac:(lra)). lra. Qed.

Lemma alpha3_range k h hacc : 0 < k -> 0 < h -> 0 <= hacc <= h -> 0 < goda_alpha3 k h hacc <= 1.
Proof.
  intros. assert (0 < k * h) by (apply Rmult_lt_0_compat; assumption). pose proof (cosh_gt_1 _ H2) as C.
  unfold goda_alpha3. set (c := cosh (k * h)) in *.
  assert (0 < 1 / c) by (apply Rdiv_lt_0_compat; lra).
  assert (1 / c < 1) by (apply (Rmult_lt_reg_r c); [lra|]; replace (1 / c * c) with 1 by (field; lra); lra).
  assert (0 <= hacc / h) by (apply Rmult_le_pos; [lra|left; apply Rinv_0_lt_compat; assumption]).
  assert (hacc / h <= 1) by (apply (Rmult_le_reg_r h); [lra|]; replace (hacc / h * h) with hacc by (field; lra); lra).
  set (r := hacc / h) in *. set (u := 1 / c) in *. assert (0 <= r * (1 - u)) by (apply Rmult_le_pos; lra).
  assert (r * (1 - u) <= 1 * (1 - u)) by (apply Rmult_le_compat_r; lra). lra.
Qed.

Lemma alpha2_nonneg hb d HD : 0 < hb -> 0 < d <= hb -> 0 < HD -> 0 <= goda_alpha2 hb d HD.
Proof.
  intros. unfold goda_alpha2. apply Rmin_glb.
  - apply Rmult_le_pos; [|apply pow2_ge_0]. apply Rmult_le_pos; [lra|]. left. apply Rinv_0_lt_compat. lra.
  - left. apply Rdiv_lt_0_compat; lra.
Qed.

(** ** C33 *)

(** The coefficients and pressures are the published ones, positive and ordered. *)
Theorem C33_pressures : forall disper HD Hsi T beta h d cot rho hacc Rc B g (B1 s : num),
  yields_wave_number disper ->
  0 < HD -> 0 <= Hsi -> 0 < T -> Rabs beta <= 90 -> 0 < h -> 0 < cot -> 0 < g -> 0 < rho ->
  0 < d <= h + Hsi * 5 / cot -> 0 <= hacc <= h -> 0 <= Rc ->
  exists FH FU MH MU p1 p2 p3 p4 hc pu hb eta k a1 a2 a3 impulsive,
    value (pressures_of disper (Fin HD) (Fin Hsi) (Fin T) (Fin beta) (Fin h) (Fin d) B1 (Fin cot) (Fin rho) (Fin hacc) (Fin Rc) (Fin B) s (Fin g))
    = Ok (Fin FH, Fin FU, Fin MH, Fin MU, Fin p1, Fin p2, Fin p3, Fin p4, Fin hc, Fin pu, Fin hb, Fin eta, Fin (2 * PI / k), Fin a1, Fin a2, Fin a3, impulsive)
    /\ 0 < k /\ disper (Fin (2 * PI / T)) (Fin h) (Fin g) = Fin k
    /\ hb = h + Hsi * 5 / cot /\ eta = goda_eta beta HD
    /\ a1 = goda_alpha1 k h /\ a2 = goda_alpha2 hb d HD /\ a3 = goda_alpha3 k h hacc
    /\ p1 = goda_p1 beta a1 a2 rho g HD /\ p2 * cosh (k * h) = p1 /\ p3 = a3 * p1 /\ pu = goda_pu beta a1 a3 rho g HD
    /\ p4 = goda_diagram p1 p3 hacc eta Rc /\ hc = Rmin eta Rc
    /\ 0.6 < a1 < 1.1 /\ 0 <= a2 <= 2 * d / HD /\ 0 < a3 <= 1
    /\ 0 < p3 <= p1 /\ 0 < p2 < p1 /\ 0 < pu <= p3 /\ 0 <= p4 <= p1 /\ (p4 = 0 <-> eta <= Rc)
    /\ 0.75 * HD < eta <= 1.5 * HD.
Proof.
  intros disper HD Hsi T beta h d cot rho hacc Rc B g B1 s Hdis HHD HHs HT Hbeta Hh Hcot Hg Hrho Hd Hacc HRc.
  pose proof (goda_cos_pos beta Hbeta) as Hc.
  destruct (local_wavelength_fin disper T h g Hdis HT Hh Hg) as (k & Hk & Ed & _).
  assert (Hkh : 0 < k * h) by (apply Rmult_lt_0_compat; assumption).
  assert (Hhb : 0 < h + Hsi * 5 / cot). { assert (0 <= Hsi * 5 / cot) by (apply Rmult_le_pos; [lra|left; apply Rinv_0_lt_compat; assumption]). lra. }
  pose proof (alpha1_range k h Hk Hh) as R1. pose proof (alpha3_range k h hacc Hk Hh Hacc) as R3.
  pose proof (alpha2_nonneg _ d HD Hhb Hd HHD) as R2.
  pose proof (cosh_gt_1 _ Hkh) as Rch.
  assert (Heta : 0.75 * HD < goda_eta beta HD <= 1.5 * HD).
  { unfold goda_eta. set (c := goda_cos beta) in *. assert (0 < c * HD) by (apply Rmult_lt_0_compat; lra).
    assert (c * HD <= 1 * HD) by (apply Rmult_le_compat_r; lra). lra. }
  destruct (impulsive_ok (Fin (Rabs beta)) B1 (Fin (2 * PI / k)) (Fin cot) s (Fin Rc) (Fin Hsi) (Fin d) (Fin h)) as (b & Eb).
  set (p1 := goda_p1 beta (goda_alpha1 k h) (goda_alpha2 (h + Hsi * 5 / cot) d HD) rho g HD).
  set (pu := goda_pu beta (goda_alpha1 k h) (goda_alpha3 k h hacc) rho g HD).
  assert (Hpu : 0 < pu /\ pu <= goda_alpha3 k h hacc * p1 /\ 0 < p1).
  { unfold pu, p1, goda_pu, goda_p1.
    set (c := goda_cos beta) in *. set (a1 := goda_alpha1 k h) in *. set (a2 := goda_alpha2 _ d HD) in *. set (a3 := goda_alpha3 k h hacc) in *.
    assert (P : 0 < 0.5 * (1 + c) * (rho * g * HD)) by (apply Rmult_lt_0_compat; [lra|]; repeat apply Rmult_lt_0_compat; assumption).
    set (P0 := 0.5 * (1 + c) * (rho * g * HD)) in *.
    replace (0.5 * (1 + c) * a1 * a3 * rho * g * HD) with (P0 * (a1 * a3)) by (unfold P0; ring).
    replace (0.5 * (1 + c) * (a1 + a2 * c ^ 2) * rho * g * HD) with (P0 * (a1 + a2 * c ^ 2)) by (unfold P0; ring).
    assert (0 <= a2 * c ^ 2) by (apply Rmult_le_pos; [assumption|apply pow2_ge_0]).
    assert (0 < P0 * a1) by (apply Rmult_lt_0_compat; lra). assert (0 <= P0 * (a2 * c ^ 2)) by (apply Rmult_le_pos; lra).
    assert (0 < P0 * a1 * a3) by (apply Rmult_lt_0_compat; lra). assert (0 <= P0 * (a2 * c ^ 2) * a3) by (apply Rmult_le_pos; lra).
    repeat split; lra. }
  destruct Hpu as (Hpu & Hpu3 & Hp1).
  set (p3 := goda_alpha3 k h hacc * p1) in *.
  assert (Hp3 : 0 < p3 <= p1).
  { unfold p3. split; [apply Rmult_lt_0_compat; lra|]. rewrite <- (Rmult_1_l p1) at 2. apply Rmult_le_compat_r; lra. }
  set (p4 := if Rltb Rc (goda_eta beta HD) then p1 * (1 - Rc / goda_eta beta HD) else 0).
  set (eta := goda_eta beta HD) in *.
  assert (Hr : 0 <= Rc / eta) by (apply Rmult_le_pos; [lra|left; apply Rinv_0_lt_compat; lra]).
  assert (Hr1 : Rc < eta -> Rc / eta < 1).
  { intros L. apply (Rmult_lt_reg_r eta); [lra|]. replace (Rc / eta * eta) with Rc by (field; lra). lra. }
  assert (Hr2 : eta <= Rc -> 1 <= Rc / eta).
  { intros L. apply (Rmult_le_reg_r eta); [lra|]. replace (Rc / eta * eta) with Rc by (field; lra). lra. }
  assert (Hp4 : p4 = goda_diagram p1 p3 hacc eta Rc /\ 0 <= p4 <= p1 /\ (p4 = 0 <-> eta <= Rc)).
  { unfold p4, goda_diagram. destruct (Rltb_spec Rc eta) as [L|L].
    - specialize (Hr1 L). assert (0 < p1 * (1 - Rc / eta)) by (apply Rmult_lt_0_compat; lra).
      assert (0 <= p1 * (Rc / eta)) by (apply Rmult_le_pos; lra).
      split; [|split; [lra|split; intros; lra]]. destruct (Rle_dec Rc 0).
      + replace Rc with 0 by lra. unfold Rdiv. rewrite !Rmult_0_l. ring.
      + rewrite Rmax_right by lra. reflexivity.
    - apply Rnot_lt_le in L. specialize (Hr2 L). split; [|split; [lra|split; intros; lra]].
      destruct (Rle_dec Rc 0); [lra|]. assert (0 <= p1 * (Rc / eta - 1)) by (apply Rmult_le_pos; lra). rewrite Rmax_left by lra. reflexivity. }
  do 5 eexists. exists (p1 / cosh (k * h)), p3, p4. do 4 eexists. exists k. do 3 eexists. exists b. split.
  { unfold calculate_pressures_and_forces_tuple. rewrite (goda_value disper HD Hsi T beta h d cot rho hacc Rc B g k) by (assumption || lra).
    mval. rewrite Eb. mval. cbn [fst]. reflexivity. }
  fold p1 pu eta.
  assert (p1 / cosh (k * h) * cosh (k * h) = p1) by (field; lra).
  assert (0 < p1 / cosh (k * h)) by (apply Rdiv_lt_0_compat; lra).
  assert (p1 / cosh (k * h) < p1).
  { apply (Rmult_lt_reg_r (cosh (k * h))); [lra|]. rewrite H. rewrite <- (Rmult_1_r p1) at 1. apply Rmult_lt_compat_l; lra. }
  assert (goda_alpha2 (h + Hsi * 5 / cot) d HD <= 2 * d / HD) by apply Rmin_r.
  destruct Hp4 as (E4 & R4 & Z4).
  repeat (split; [first [reflexivity | assumption | lra]|]). lra.
Qed.

(** Waves within 15 degrees of the normal load the caisson like normal waves;
    positive and negative angles are alike; a missing angle is an error. *)
Theorem C33_small_angle : forall disper HD Hsi T beta h d B1 cot rho hacc Rc B s g,
  Rabs beta <= 15 ->
  pressures_of disper HD Hsi T (Fin beta) h d B1 cot rho hacc Rc B s g
  = pressures_of disper HD Hsi T (Fin 0) h d B1 cot rho hacc Rc B s g.
Proof.
  intros. assert (EA : goda_angle beta = goda_angle 0).
  { unfold goda_angle. rewrite Rabs_R0. rewrite !Rmax_right by lra. reflexivity. }
  unfold calculate_pressures_and_forces_tuple, calculate_pressures_and_forces. cbv zeta. rewrite !angle_fin, !bind_ret_l, EA.
  assert (EI : forall L, check_impulsive_breaking (nabs (Fin beta)) B1 L cot s Rc Hsi d h = check_impulsive_breaking (nabs (Fin 0)) B1 L cot s Rc Hsi d h).
  { intros L. unfold check_impulsive_breaking. cbn [existsb isnan nabs nlt]. rewrite Rabs_R0.
    rewrite (Rltb_true (Rabs beta)), (Rltb_true 0) by lra. reflexivity. }
  rewrite EI. rewrite !bind_assoc. reflexivity.
Qed.

Theorem C33_symmetric : forall disper HD Hsi T beta h d B1 cot rho hacc Rc B s g,
  pressures_of disper HD Hsi T (- beta)%num h d B1 cot rho hacc Rc B s g
  = pressures_of disper HD Hsi T beta h d B1 cot rho hacc Rc B s g.
Proof.
  intros. unfold calculate_pressures_and_forces_tuple, calculate_pressures_and_forces.
  replace (nabs (- beta)) with (nabs beta); [reflexivity|]. destruct beta; cbn; rewrite ?Rabs_Ropp; reflexivity.
Qed.

Theorem C33_missing_angle : forall disper HD Hsi T h d B1 cot rho hacc Rc B s g,
  value (pressures_of disper HD Hsi T NaN h d B1 cot rho hacc Rc B s g) = Err UnboundLocalError.
Proof. reflexivity. Qed.

(** ** C34 *)

(** The force and moment are those of the pressure diagram over the wall; the
    uplift those of the triangle over the base. *)
Theorem C34_forces : forall disper HD Hsi T beta h d cot rho hacc Rc B g (B1 s : num),
  yields_wave_number disper ->
  0 < HD -> 0 <= Hsi -> 0 < T -> Rabs beta <= 90 -> 0 < h -> 0 < cot -> 0 < g -> 0 < rho ->
  0 < d <= h + Hsi * 5 / cot -> 0 < hacc <= h -> 0 <= Rc -> 0 < B ->
  exists FH FU MH MU p1 p2 p3 p4 hc pu hb eta L a1 a2 a3 impulsive,
    value (pressures_of disper (Fin HD) (Fin Hsi) (Fin T) (Fin beta) (Fin h) (Fin d) B1 (Fin cot) (Fin rho) (Fin hacc) (Fin Rc) (Fin B) s (Fin g))
    = Ok (Fin FH, Fin FU, Fin MH, Fin MU, Fin p1, Fin p2, Fin p3, Fin p4, Fin hc, Fin pu, hb, Fin eta, L, a1, a2, a3, impulsive)
    /\ integral (goda_diagram p1 p3 hacc eta) (- hacc) Rc FH
    /\ integral (fun z => (z + hacc) * goda_diagram p1 p3 hacc eta z) (- hacc) Rc MH
    /\ integral (goda_uplift pu B) 0 B FU
    /\ integral (fun x => x * goda_uplift pu B x) 0 B MU
    /\ 0 < FH /\ 0 < MH /\ 0 < FU /\ 0 < MU.
Proof.
  intros disper HD Hsi T beta h d cot rho hacc Rc B g B1 s Hdis HHD HHs HT Hbeta Hh Hcot Hg Hrho Hd Hacc HRc HB.
  destruct (C33_pressures disper HD Hsi T beta h d cot rho hacc Rc B g B1 s Hdis HHD HHs HT Hbeta Hh Hcot Hg Hrho Hd ltac:(lra) HRc)
    as (FH & FU & MH & MU & p1 & p2 & p3 & p4 & hc & pu & hb & eta & k & a1 & a2 & a3 & b & V & Hk & Ed & _ & _ & _ & _ & _ & _ & _ & _ & _ & E4 & Ec & _ & _ & _ & H3 & H2 & Hu & H4 & Z4 & He).
  exists FH, FU, MH, MU, p1, p2, p3, p4, hc, pu, (Fin hb), eta. do 5 eexists. split; [exact V|].
  unfold calculate_pressures_and_forces_tuple in V. rewrite (goda_value disper HD Hsi T beta h d cot rho hacc Rc B g k) in V by (assumption || lra).
  destruct (impulsive_ok (Fin (Rabs beta)) B1 (Fin (2 * PI / k)) (Fin cot) s (Fin Rc) (Fin Hsi) (Fin d) (Fin h)) as (b' & Eb).
  revert V. mval. rewrite Eb. mval. cbn [fst]. intros V.
  injection V as EFH EFU EMH EMU Ep1 _ Ep3 Ep4 Ehc Epu _ _ _ _ _ _.
  rewrite Ep1, Ep3, Ep4, Ehc in *. rewrite Epu in *. clear Ep1 Ep3 Ep4 Ehc Epu.
  assert (Hhc : 0 <= hc) by (rewrite Ec; apply Rmin_glb; lra).
  (* the two legs of the diagram *)
  assert (Low : forall z, - hacc <= z <= 0 -> goda_diagram p1 p3 hacc eta z = p1 + (p1 - p3) / hacc * z).
  { intros z Hz. unfold goda_diagram. destruct (Rle_dec z 0); [|lra]. field. lra. }
  assert (Up : forall z, 0 <= z <= hc -> goda_diagram p1 p3 hacc eta z = p1 - p1 / eta * z).
  { intros z Hz. unfold goda_diagram. destruct (Rle_dec z 0).
    - replace z with 0 by lra. unfold Rdiv. ring.
    - assert (hc <= eta) by (rewrite Ec; apply Rmin_l). rewrite Rmax_right; [field; lra|].
      apply Rmult_le_pos; [lra|]. assert (z / eta <= 1); [|lra]. apply (Rmult_le_reg_r eta); [lra|]. replace (z / eta * eta) with z by (field; lra). lra. }
  assert (Top : forall z, hc <= z <= Rc -> goda_diagram p1 p3 hacc eta z = 0 \/ z = Rc /\ Rc = hc).
  { intros z Hz. revert Ec. unfold Rmin. destruct (Rle_dec eta Rc); intros Ec; [left|right; lra].
    unfold goda_diagram. destruct (Rle_dec z 0); [lra|]. apply Rmax_left.
    assert (1 <= z / eta) by (apply (Rmult_le_reg_r eta); [lra|]; replace (z / eta * eta) with z by (field; lra); lra).
    assert (0 <= p1 * (z / eta - 1)) by (apply Rmult_le_pos; lra). lra. }
  assert (HcR : hc <= Rc) by (rewrite Ec; apply Rmin_r).
  assert (Tail : forall w : R -> R, integral (fun z => w z * goda_diagram p1 p3 hacc eta z) hc Rc 0).
  { intros w. destruct (Req_dec hc Rc) as [->|N].
    - exists (RiemannInt_P7 _ _). apply RiemannInt_P9.
    - apply (integral_piece _ 0 0 0); [assumption| |field]. intros x Hx. destruct (Top x Hx) as [->|]; [ring|lra]. }
  (* the pressure at the top of the loaded part *)
  assert (P4 : p4 = p1 - p1 / eta * hc).
  { rewrite E4. revert Ec. unfold Rmin. destruct (Rle_dec eta Rc); intros ->.
    - rewrite <- E4. replace (p1 - p1 / eta * eta) with 0 by (field; lra). apply Z4. assumption.
    - apply Up. revert Hhc. lra. }
  assert (He' : eta <> 0) by lra.
  repeat split.
  - apply (integral_ext _ (fun z => 1 * goda_diagram p1 p3 hacc eta z)); [lra|intros; ring|].
    replace FH with ((1 / 2 * (p1 + p3) * hacc + 1 / 2 * (p1 + p4) * hc) + 0) by lra.
    apply (integral_chain _ _ hc); [|apply Tail]. apply (integral_chain _ _ 0).
    + apply (integral_piece _ p1 ((p1 - p3) / hacc) 0); [lra| |]; [intros x Hx; rewrite Low by assumption; ring|]. field. lra.
    + apply (integral_piece _ p1 (- (p1 / eta)) 0); [lra| |]; [intros x Hx; rewrite Up by assumption; ring|]. rewrite P4. field. lra.
  - replace MH with ((1 / 6 * (2 * p1 + p3) * hacc ^ 2 + (1 / 2 * (p1 + p4) * hacc * hc + 1 / 6 * (p1 + 2 * p4) * hc ^ 2)) + 0) by lra.
    apply (integral_chain _ _ hc); [|apply Tail]. apply (integral_chain _ _ 0).
    + apply (integral_piece _ (p1 * hacc) (p1 + (p1 - p3)) ((p1 - p3) / hacc)); [lra| |].
      * intros x Hx. rewrite Low by assumption. field. lra.
      * field. lra.
    + apply (integral_piece _ (p1 * hacc) (p1 - p1 / eta * hacc) (- (p1 / eta))); [lra| |].
      * intros x Hx. rewrite Up by assumption. ring.
      * rewrite P4. field. lra.
  - apply (integral_piece _ 0 (pu / B) 0); [lra| |].
    + intros x Hx. unfold goda_uplift. field. lra.
    + rewrite <- EFU. replace 0.5 with (1 / 2) by lra. field. lra.
  - apply (integral_piece _ 0 0 (pu / B)); [lra| |].
    + intros x Hx. unfold goda_uplift. field. lra.
    + rewrite <- EMU. replace 0.5 with (1 / 2) by lra. field. lra.
  - assert (0 < (p1 + p3) * hacc) by (apply Rmult_lt_0_compat; lra). assert (0 <= (p1 + p4) * hc) by (apply Rmult_le_pos; lra). lra.
  - assert (0 < (2 * p1 + p3) * hacc ^ 2) by (apply Rmult_lt_0_compat; [lra|nra]).
    assert (0 <= (p1 + p4) * hacc * hc) by (apply Rmult_le_pos; [apply Rmult_le_pos; lra|lra]).
    assert (0 <= (p1 + 2 * p4) * hc ^ 2) by (apply Rmult_le_pos; [lra|apply pow2_ge_0]). lra.
  - assert (0 < pu * B) by (apply Rmult_lt_0_compat; lra). lra.
  - assert (0 < pu * B * B) by (repeat apply Rmult_lt_0_compat; lra). lra.
Qed.

(** ** C35 *)

Lemma bearing_value W t MH MU FU B : 0 < B -> FU < W ->
  let te := (W * t - MU - MH) / (W - FU) in te <> 0 ->
  calculate_bearing_pressures (Fin W) (Fin t) (Fin MH) (Fin MU) (Fin FU) (Fin B)
  = (Fin (if Rleb te (1 / 3 * B) then 2 * (W - FU) / (3 * te) else 2 * (W - FU) / B * (2 - 3 * (te / B))),
     Fin (W * t - MU - MH), Fin (W - FU), Fin te).
Proof.
  intros HB HW te Hte. unfold calculate_bearing_pressures. cbv zeta.
  rewrite !nmul_fin, !nsub_fin. rewrite (ndiv_fin (W * t - MU - MH)) by lra. fold te.
  rewrite (ndiv_fin 1) by lra. rewrite !nmul_fin, !ndiv_fin by lra. rewrite !nmul_fin, !nsub_fin, !nmul_fin. rewrite nle_fin. destruct (Rleb te (1 / 3 * B)); reflexivity.
Qed.

(** The pressure at the heel is that of a linear, compressive reaction in
    equilibrium with the vertical load and the moments about the heel. *)
Theorem C35_equilibrium : forall W t MH MU FU B,
  0 < B -> FU < W -> 0 < W * t - MU - MH <= 2 / 3 * B * (W - FU) ->
  exists pe te m,
    calculate_bearing_pressures (Fin W) (Fin t) (Fin MH) (Fin MU) (Fin FU) (Fin B)
    = (Fin pe, Fin (W * t - MU - MH), Fin (W - FU), Fin te)
    /\ te * (W - FU) = W * t - MU - MH /\ 0 <= pe
    /\ (forall x, 0 <= x -> x <= B -> bearing pe m x <= Rmax pe (pe + m * B))
    /\ integral (bearing pe m) 0 B (W - FU)
    /\ integral (fun x => x * bearing pe m x) 0 B (W * t - MU - MH).
Proof.
  intros W t MH MU FU B HB HW HM. set (We := W - FU). assert (HWe : 0 < We) by (unfold We; lra). set (Me := W * t - MU - MH) in *.
  set (te := Me / We).
  assert (Hte : 0 < te) by (apply Rdiv_lt_0_compat; lra).
  assert (EM : te * We = Me) by (unfold te; field; lra).
  assert (Hte2 : te <= 2 / 3 * B). { apply (Rmult_le_reg_r We); [assumption|]. rewrite EM. fold We in HM. lra. }
  pose proof (bearing_value W t MH MU FU B HB HW) as E. cbv zeta in E. fold Me We in E. fold te in E. specialize (E ltac:(lra)).
  destruct (Rleb_spec te (1 / 3 * B)) as [L|L].
  - set (pe := 2 * We / (3 * te)). assert (Hpe : 0 < pe) by (apply Rdiv_lt_0_compat; lra).
    set (m := - (pe / (3 * te))).
    assert (Sg : forall x, pe + m * x = pe * (1 - x / (3 * te))) by (intros; unfold m; field; lra).
    assert (A : forall x, 0 <= x <= 3 * te -> bearing pe m x = pe + m * x).
    { intros x Hx. unfold bearing. apply Rmax_right. rewrite Sg. apply Rmult_le_pos; [lra|].
      assert (x / (3 * te) <= 1); [|lra]. apply (Rmult_le_reg_r (3 * te)); [lra|]. replace (x / (3 * te) * (3 * te)) with x by (field; lra). lra. }
    assert (Z : forall x, 3 * te <= x <= B -> bearing pe m x = 0).
    { intros x Hx. unfold bearing. apply Rmax_left. rewrite Sg.
      assert (1 <= x / (3 * te)) by (apply (Rmult_le_reg_r (3 * te)); [lra|]; replace (x / (3 * te) * (3 * te)) with x by (field; lra); lra).
      assert (0 <= pe * (x / (3 * te) - 1)) by (apply Rmult_le_pos; lra). lra. }
    exists pe, te, m. split; [exact E|]. split; [assumption|]. split; [lra|]. split; [|split].
    + intros x H0 _. eapply Rle_trans; [|apply Rmax_l]. unfold bearing. apply Rmax_lub; [lra|]. rewrite Sg.
      assert (0 <= x / (3 * te)) by (apply Rmult_le_pos; [lra|left; apply Rinv_0_lt_compat; lra]).
      assert (0 <= pe * (x / (3 * te))) by (apply Rmult_le_pos; lra). lra.
    + replace We with (We + 0) by ring. apply (integral_chain _ _ (3 * te)).
      * apply (integral_piece _ pe m 0); [lra| |]; [intros x Hx; rewrite A by assumption; ring|]. unfold m, pe. field. lra.
      * apply (integral_piece _ 0 0 0); [lra| |field]. intros x Hx. rewrite Z by assumption. ring.
    + replace Me with (Me + 0) by ring. apply (integral_chain _ _ (3 * te)).
      * apply (integral_piece _ 0 pe m); [lra| |]; [intros x Hx; rewrite A by assumption; ring|]. unfold m, pe. rewrite <- EM. field. lra.
      * apply (integral_piece _ 0 0 0); [lra| |field]. intros x Hx. rewrite Z by assumption. ring.
  - apply Rnot_le_lt in L.
    set (pe := 2 * We / B * (2 - 3 * (te / B))). set (m := 2 * We / B * (6 * (te / B) - 3) / B).
    assert (P : 0 < 2 * We / B) by (apply Rdiv_lt_0_compat; lra).
    set (P0 := 2 * We / B) in *. set (r := te / B) in *.
    assert (R1 : 1 / 3 < r) by (apply (Rmult_lt_reg_r B); [assumption|]; unfold r; replace (te / B * B) with te by (field; lra); lra).
    assert (R2 : r <= 2 / 3) by (apply (Rmult_le_reg_r B); [assumption|]; unfold r; replace (te / B * B) with te by (field; lra); lra).
    assert (Hpe : 0 <= pe) by (apply Rmult_le_pos; lra).
    assert (Sg : forall x, pe + m * x = P0 * ((2 - 3 * r) * (1 - x / B) + (3 * r - 1) * (x / B))) by (intros; unfold pe, m; field; lra).
    assert (X : forall x, 0 <= x <= B -> 0 <= x / B <= 1).
    { intros x Hx. split; [apply Rmult_le_pos; [lra|left; apply Rinv_0_lt_compat; assumption]|].
      apply (Rmult_le_reg_r B); [assumption|]. replace (x / B * B) with x by (field; lra). lra. }
    assert (A : forall x, 0 <= x <= B -> bearing pe m x = pe + m * x).
    { intros x Hx. unfold bearing. apply Rmax_right. rewrite Sg. specialize (X x Hx). apply Rmult_le_pos; [lra|].
      assert (0 <= (2 - 3 * r) * (1 - x / B)) by (apply Rmult_le_pos; lra). assert (0 <= (3 * r - 1) * (x / B)) by (apply Rmult_le_pos; lra). lra. }
    exists pe, te, m. split; [exact E|]. split; [assumption|]. split; [assumption|]. split; [|split].
    + intros x H0 H1. rewrite A by lra. specialize (X x (conj H0 H1)).
      replace (pe + m * x) with (pe * (1 - x / B) + (pe + m * B) * (x / B)) by (field; lra).
      set (y := x / B) in *. set (q := pe + m * B). pose proof (Rmax_l pe q). pose proof (Rmax_r pe q). set (mx := Rmax pe q) in *.
      assert (pe * (1 - y) <= mx * (1 - y)) by (apply Rmult_le_compat_r; lra). assert (q * y <= mx * y) by (apply Rmult_le_compat_r; lra). lra.
    + apply (integral_piece _ pe m 0); [lra| |]; [intros x Hx; rewrite A by assumption; ring|]. unfold m, pe, P0, r. field. lra.
    + apply (integral_piece _ 0 pe m); [lra| |]; [intros x Hx; rewrite A by assumption; ring|]. rewrite <- EM. unfold m, pe, P0, r. field. lra.
Qed.

(** A caisson that overturns, or whose reaction lies beyond the middle third on
    the seaward side, is given a negative pressure. *)
Theorem C35_negative : forall W t MH MU FU B pe Me We te,
  0 < B -> FU < W -> W * t - MU - MH < 0 \/ 2 / 3 * B * (W - FU) < W * t - MU - MH ->
  calculate_bearing_pressures (Fin W) (Fin t) (Fin MH) (Fin MU) (Fin FU) (Fin B) = (Fin pe, Me, We, te) -> pe < 0.
Proof.
  intros W t MH MU FU B pe Me We te HB HW HM E. set (w := W - FU) in *. assert (Hw : 0 < w) by (unfold w; lra).
  set (M := W * t - MU - MH) in *.
  assert (EM : M / w * w = M) by (field; lra).
  pose proof (bearing_value W t MH MU FU B HB HW) as E'. cbv zeta in E'. fold w M in E'.
  assert (N : M / w <> 0). { intros Z. rewrite Z in EM. assert (0 < 2 / 3 * B * w) by (apply Rmult_lt_0_compat; lra). lra. }
  specialize (E' N). rewrite E' in E. injection E as E _ _ _. rewrite <- E. clear E E'.
  destruct HM as [HM|HM].
  - assert (M / w < 0). { destruct (Rlt_le_dec (M / w) 0); [assumption|]. assert (0 <= M / w * w) by (apply Rmult_le_pos; lra). lra. }
    rewrite Rleb_true by lra. assert (0 < 2 * w / (3 * - (M / w))) by (apply Rdiv_lt_0_compat; lra).
    replace (2 * w / (3 * (M / w))) with (- (2 * w / (3 * - (M / w)))) by (field; split; lra). lra.
  - assert (2 / 3 * B < M / w). { apply (Rmult_lt_reg_r w); [assumption|]. rewrite EM. assumption. }
    rewrite Rleb_false by lra. set (te' := M / w) in *.
    assert (2 / 3 < te' / B). { apply (Rmult_lt_reg_r B); [assumption|]. replace (te' / B * B) with te' by (field; lra). assumption. }
    assert (0 < 2 * w / B) by (apply Rdiv_lt_0_compat; lra).
    assert (0 < 2 * w / B * (3 * (te' / B) - 2)) by (apply Rmult_lt_0_compat; lra). lra.
Qed.

(** The safety factors: friction against the horizontal force, and the weight
    against the overturning moments, consistently with the reaction. *)
Theorem C35_safety : forall FU FH W mu t MH MU,
  0 < FH -> 0 < MH ->
  exists sliding overturning,
    calculate_safety_factors (Fin FU) (Fin FH) (Fin W) (Fin mu) (Fin t) (Fin MH) (Fin MU) = (Fin sliding, Fin overturning)
    /\ sliding * FH = mu * (W - FU) /\ overturning * MH + MU = W * t
    /\ (1 <= sliding <-> FH <= mu * (W - FU))
    /\ (1 <= overturning <-> 0 <= W * t - MU - MH).
Proof.
  intros. unfold calculate_safety_factors. rewrite nsub_fin, !nmul_fin, nsub_fin, !ndiv_fin by lra. do 2 eexists. split; [reflexivity|].
  assert (E1 : mu * (W - FU) / FH * FH = mu * (W - FU)) by (field; lra).
  assert (E2 : (W * t - MU) / MH * MH = W * t - MU) by (field; lra).
  repeat split; try lra.
  - intros L. apply (Rmult_le_compat_r FH) in L; lra.
  - intros L. apply (Rmult_le_reg_r FH); lra.
  - intros L. apply (Rmult_le_compat_r MH) in L; lra.
  - intros L. apply (Rmult_le_reg_r MH); lra.
Qed.

(** The weight is that of the fill above and, submerged, below still water; the
    results of the parts are passed on. *)
Theorem C35_weight : forall hacc Rc B below above rho g,
  calculate_Wup (Fin hacc) (Fin Rc) (Fin B) (Fin below) (Fin rho) (Fin above) (Fin g)
  = Fin (caisson_weight hacc Rc B below above rho g).
Proof. intros. unfold calculate_Wup, caisson_weight. nfin. f_equal. ring. Qed.

Lemma checks_ok beta cot T t B h B1 : value (check_validity_range beta cot T t B h B1) = Ok tt.
Proof. unfold check_validity_range. mchecks. reflexivity. Qed.

Theorem C35_reactions : forall disper HD Hsi T beta h d B1 cot rho hacc Rc B above below s mu frac g,
  match value (pressures_of disper HD Hsi T beta h d B1 cot rho hacc Rc B s g) with
  | Ok (FH, FU, MH, MU, p1, p2, p3, p4, hc, pu, hb, eta, L, a1, a2, a3, impulsive) =>
      exists pe Me We te sliding overturning W,
        W = calculate_Wup hacc Rc B below rho above g /\
        calculate_bearing_pressures W (frac * B)%num MH MU FU B = (pe, Me, We, te) /\
        calculate_safety_factors FU FH W mu (frac * B)%num MH MU = (sliding, overturning) /\
        value (reactions_of disper HD Hsi T beta h d B1 cot rho hacc Rc B above below s mu frac g)
        = Ok (FH, FU, MH, MU, p1, pe, pu, impulsive, sliding, overturning)
  | Err e => value (reactions_of disper HD Hsi T beta h d B1 cot rho hacc Rc B above below s mu frac g) = Err e
  end.
Proof.
  intros. unfold calculate_forces_and_reactions_tuple, calculate_forces_and_reactions. mval.
  destruct (value (pressures_of disper HD Hsi T beta h d B1 cot rho hacc Rc B s g)) as [[[[[[[[[[[[[[[[[FH FU] MH] MU] p1] p2] p3] p4] hc] pu] hb] eta] L] a1] a2] a3] b]|e]; [|reflexivity].
  set (W := calculate_Wup hacc Rc B below rho above g).
  destruct (calculate_bearing_pressures W (frac * B)%num MH MU FU B) as [[[pe Me] We] te] eqn:E1.
  destruct (calculate_safety_factors FU FH W mu (frac * B)%num MH MU) as [sl ov] eqn:E2.
  do 6 eexists. exists W. split; [reflexivity|]. split; [exact E1|]. split; [exact E2|].
  mval. rewrite checks_ok. reflexivity.
Qed.

(** ** C36 *)

Definition impulsive_warning (name : string) : warning := WRange name "Goda (2000)" #1 #0 #0.

Lemma check_true_eq name : check_true name = ([impulsive_warning name], Ok tt).
Proof.
  unfold check_true, check, check_variable_validity_range, check_values.
  assert (E : (nlt #1 #0 || ngt #1 #0)%bool = true) by (cbn [nlt ngt]; rewrite (Rltb_true 0 1) by lra; apply orb_true_r).
  rewrite E. reflexivity.
Qed.

Theorem C36_impulsive : forall beta B1 L cot s Rc Hsi d h,
  0 < L -> 0 < Hsi -> 0 < h ->
  let result := check_impulsive_breaking (Fin beta) (Fin B1) (Fin L) (Fin cot) (Fin s) (Fin Rc) (Fin Hsi) (Fin d) (Fin h) in
  (impulsive_1 beta B1 L cot s Rc Hsi /\ result = ([impulsive_warning "Impulsive breaking condition 1"], Ok true))
  \/ (impulsive_2 beta B1 L Rc Hsi d h /\ result = ([impulsive_warning "Impulsive breaking condition 2"], Ok true))
  \/ (~ impulsive_1 beta B1 L cot s Rc Hsi /\ ~ impulsive_2 beta B1 L Rc Hsi d h /\ result = ([], Ok false)).
Proof.
  intros beta B1 L cot s Rc Hsi d h HL HH Hh. cbv zeta. unfold check_impulsive_breaking, impulsive_1, impulsive_2. cbn [existsb isnan orb negb andb].
  rewrite !ndiv_fin by lra. cbn [nlt ngt]. rewrite !check_true_eq.
  match goal with |- context [if ?c then bind _ _ else if ?c' then _ else _] => set (c1 := c); set (c2 := c') end.
  assert (I1 : c1 = true <-> beta < 20 /\ B1 / L < 0.02 /\ cot < 50 /\ s < 0.03 /\ 0.3 < Rc / Hsi) by (unfold c1; rewrite !andb_true_iff, !Rltb_iff; tauto).
  assert (I2 : c2 = true <-> beta < 20 /\ 0.02 < B1 / L < 0.3 /\ d / h < 0.6 /\ 0.3 < Rc / Hsi) by (unfold c2; rewrite !andb_true_iff, !Rltb_iff; tauto).
  rewrite <- I1, <- I2. destruct c1; [left; split; reflexivity|]. right. destruct c2; [left; split; reflexivity|]. right. repeat split; discriminate.
Qed.

(** Without the offshore steepness, the default, only the second condition is
    looked at. *)
Theorem C36_missing_steepness : forall beta B1 L cot Rc Hsi d h,
  0 < L -> 0 < Hsi -> 0 < h ->
  exists b, value (check_impulsive_breaking (Fin beta) (Fin B1) (Fin L) cot NaN (Fin Rc) (Fin Hsi) (Fin d) (Fin h)) = Ok b
  /\ (b = true <-> impulsive_2 beta B1 L Rc Hsi d h).
Proof.
  intros beta B1 L cot Rc Hsi d h HL HH Hh. unfold check_impulsive_breaking, impulsive_2. cbn [existsb isnan orb negb andb].
  rewrite !orb_true_r. cbn [negb andb orb].
  rewrite !ndiv_fin by lra. cbn [nlt ngt]. rewrite !check_true_eq.
  destruct (Rltb_spec beta 20), (Rltb_spec 0.02 (B1 / L)), (Rltb_spec (B1 / L) 0.3), (Rltb_spec (d / h) 0.6), (Rltb_spec 0.3 (Rc / Hsi)); cbn [andb];
  (eexists; split; [reflexivity|]; split; intros; [try discriminate|]; intuition lra).
Qed.

(** A berm of exactly 2% of the wave length meets neither condition. *)
Theorem C36_gap : forall beta B1 L cot s Rc Hsi d h,
  0 < L -> 0 < Hsi -> 0 < h -> B1 = 0.02 * L ->
  check_impulsive_breaking (Fin beta) (Fin B1) (Fin L) (Fin cot) (Fin s) (Fin Rc) (Fin Hsi) (Fin d) (Fin h) = ([], Ok false).
Proof.
  intros beta B1 L cot s Rc Hsi d h HL HH Hh E. assert (B1 / L = 0.02) by (rewrite E; field; lra).
  destruct (C36_impulsive beta B1 L cot s Rc Hsi d h HL HH Hh) as [[I _]|[[I _]|(_ & _ & V)]]; [| |exact V]; unfold impulsive_1, impulsive_2 in I; lra.
Qed.

(** The flag returned with the forces is that of the conditions, at the angle
    without its sign and the local wave length. *)
Theorem C36_flag : forall disper HD Hsi T beta h d cot rho hacc Rc B g B1 s,
  yields_wave_number disper ->
  0 < HD -> 0 < Hsi -> 0 < T -> Rabs beta <= 90 -> 0 < h -> 0 < cot -> 0 < g -> 0 < d ->
  exists k FH FU MH MU p1 p2 p3 p4 hc pu hb eta L a1 a2 a3 impulsive,
    disper (Fin (2 * PI / T)) (Fin h) (Fin g) = Fin k /\
    value (pressures_of disper (Fin HD) (Fin Hsi) (Fin T) (Fin beta) (Fin h) (Fin d) (Fin B1) (Fin cot) (Fin rho) (Fin hacc) (Fin Rc) (Fin B) (Fin s) (Fin g))
    = Ok (FH, FU, MH, MU, p1, p2, p3, p4, hc, pu, hb, eta, L, a1, a2, a3, impulsive) /\
    (impulsive = true <-> impulsive_1 (Rabs beta) B1 (2 * PI / k) cot s Rc Hsi \/ impulsive_2 (Rabs beta) B1 (2 * PI / k) Rc Hsi d h).
Proof.
  intros disper HD Hsi T beta h d cot rho hacc Rc B g B1 s Hdis HHD HHs HT Hbeta Hh Hcot Hg Hd.
  destruct (local_wavelength_fin disper T h g Hdis HT Hh Hg) as (k & Hk & Ed & _). pose proof PI_RGT_0.
  assert (HL : 0 < 2 * PI / k) by (apply Rdiv_lt_0_compat; lra).
  assert (F : exists b, value (check_impulsive_breaking (Fin (Rabs beta)) (Fin B1) (Fin (2 * PI / k)) (Fin cot) (Fin s) (Fin Rc) (Fin Hsi) (Fin d) (Fin h)) = Ok b
    /\ (b = true <-> impulsive_1 (Rabs beta) B1 (2 * PI / k) cot s Rc Hsi \/ impulsive_2 (Rabs beta) B1 (2 * PI / k) Rc Hsi d h)).
  { destruct (C36_impulsive (Rabs beta) B1 (2 * PI / k) cot s Rc Hsi d h HL HHs Hh) as [[I E]|[[I E]|(N1 & N2 & E)]]; cbv zeta in E; rewrite E; eexists; (split; [reflexivity|]); [tauto|tauto|].
    split; [discriminate|tauto]. }
  destruct F as (b & Eb & Hb).
  exists k. do 16 eexists. exists b. split; [exact Ed|]. split; [|exact Hb]. unfold calculate_pressures_and_forces_tuple.
  rewrite (goda_value disper HD Hsi T beta h d cot rho hacc Rc B g k) by (assumption || lra).
  mval. rewrite Eb. mval. cbn [fst]. reflexivity.
Qed.

(** ** C60 *)

Fixpoint lookup (name : string) (d : dict) : option entry :=
  match d with
  | [] => None
  | (n, e) :: d => if String.eqb name n then Some e else lookup name d
  end.

(** The dictionaries hold the values of the tuples; that of the reactions has
    no entry "Bup", and its "is_valid" is always None. *)
Theorem C60_pressures_dictionary : forall disper HD Hsi T beta h d B1 cot rho hacc Rc B s g,
  match value (pressures_of disper HD Hsi T beta h d B1 cot rho hacc Rc B s g) with
  | Ok (FH, FU, MH, MU, p1, p2, p3, p4, hc, pu, hb, eta, L, a1, a2, a3, impulsive) =>
      exists D, value (calculate_pressures_and_forces_dict disper HD Hsi T beta h d B1 cot rho hacc Rc B s g) = Ok D
      /\ map (fun n => lookup n D) ["FH"; "FU"; "MH"; "MU"; "p1"; "p2"; "p3"; "p4"; "hstar_c"; "pu"; "h_5Hs"; "etastar"; "L"; "alpha1"; "alpha2"; "alpha3"]%string
         = map (fun v => Some (ENum v)) [FH; FU; MH; MU; p1; p2; p3; p4; hc; pu; hb; eta; L; a1; a2; a3]
      /\ lookup "impulsive_breaking" D = Some (EBool impulsive)
      /\ map (fun n => lookup n D) ["HD"; "Hsi"; "Tmax"; "beta"; "h_s"; "d"; "cota_seabed"; "rho_water"; "hacc"; "Rc"; "Bup"; "g"]%string
         = map (fun v => Some (ENum v)) [HD; Hsi; T; nabs beta; h; d; cot; rho; hacc; Rc; B; g]
  | Err e => value (calculate_pressures_and_forces_dict disper HD Hsi T beta h d B1 cot rho hacc Rc B s g) = Err e
  end.
Proof.
  intros. unfold calculate_pressures_and_forces_tuple, calculate_pressures_and_forces_dict. mval.
  unfold calculate_pressures_and_forces. cbv zeta. mval.
  match goal with |- context [value (if ?c then _ else _)] => destruct c end; [|match goal with |- context [value (if ?c then _ else _)] => destruct c end]; mval; [| |reflexivity];
  match goal with |- context [check_impulsive_breaking ?a ?b ?c ?d ?e ?f ?g ?h ?i] => destruct (impulsive_ok a b c d e f g h i) as (b' & Eb) end;
  rewrite Eb; mval; cbn [fst snd]; eexists; (split; [reflexivity|]); split; [reflexivity|split; reflexivity|reflexivity|split; reflexivity].
Qed.

Theorem C60_reactions_dictionary : forall disper HD Hsi T beta h d B1 cot rho hacc Rc B above below s mu frac g,
  match value (reactions_of disper HD Hsi T beta h d B1 cot rho hacc Rc B above below s mu frac g) with
  | Ok (FH, FU, MH, MU, p1, pe, pu, impulsive, sliding, overturning) =>
      exists D W Me We te,
      value (calculate_forces_and_reactions_dict disper HD Hsi T beta h d B1 cot rho hacc Rc B above below s mu frac g) = Ok D
      /\ W = calculate_Wup hacc Rc B below rho above g
      /\ calculate_bearing_pressures W (frac * B)%num MH MU FU B = (pe, Me, We, te)
      /\ map (fun n => lookup n D) ["FH"; "FU"; "MH"; "MU"; "p1"; "pe"; "pu"; "SF_sliding"; "SF_overturning"; "Wup"; "tup"; "Me"; "We"; "te"]%string
         = map (fun v => Some (ENum v)) [FH; FU; MH; MU; p1; pe; pu; sliding; overturning; W; (frac * B)%num; Me; We; te]
      /\ lookup "impulsive_breaking" D = Some (EBool impulsive) /\ lookup "is_valid" D = Some ENone
      /\ map (fun n => lookup n D) ["HD"; "Hsi"; "Tmax"; "beta"; "h_s"; "d"; "cota_seabed"; "rho_water"; "hacc"; "Rc"; "B_up"; "g"]%string
         = map (fun v => Some (ENum v)) [HD; Hsi; T; beta; h; d; cot; rho; hacc; Rc; B; g]
      /\ lookup "Bup" D = None
  | Err e => value (calculate_forces_and_reactions_dict disper HD Hsi T beta h d B1 cot rho hacc Rc B above below s mu frac g) = Err e
  end.
Proof.
  intros. unfold calculate_forces_and_reactions_tuple, calculate_forces_and_reactions_dict. mval.
  unfold calculate_forces_and_reactions. mval.
  destruct (value (pressures_of disper HD Hsi T beta h d B1 cot rho hacc Rc B s g)) as [[[[[[[[[[[[[[[[[FH FU] MH] MU] p1] p2] p3] p4] hc] pu] hb] eta] L] a1] a2] a3] b]|e]; [|reflexivity].
  set (W := calculate_Wup hacc Rc B below rho above g).
  destruct (calculate_bearing_pressures W (frac * B)%num MH MU FU B) as [[[pe Me] We] te] eqn:E1.
  destruct (calculate_safety_factors FU FH W mu (frac * B)%num MH MU) as [sl ov] eqn:E2.
  mval. rewrite checks_ok. mval. cbn [fst snd]. do 5 eexists. split; [reflexivity|]. split; [reflexivity|]. split; [exact E1|].
  repeat split.
Qed.

(** ** C58: warnings *)
Theorem C58_goda : forall disper HD Hsi T beta h d cot rho hacc Rc B above below s mu frac g B1,
  beta <> NaN ->
  exists ws,
    warns (reactions_of disper HD Hsi T beta h d B1 cot rho hacc Rc B above below s mu frac g)
    = (warns (pressures_of disper HD Hsi T beta h d B1 cot rho hacc Rc B s g) ++ ws)%list
    /\ reported
        [XRange "Angle of wave incidence" "Goda (2000)" beta #0 #90;
         XRange "Seabed slope" "Goda (2000)" cot #10 #100;
         XRange "Wave period" "Goda (2000)" T #0 #30;
         XRange "Centre of gravity inside of caisson" "Goda (2000)" (frac * B / B)%num #0 #1;
         XRange "Water depth at site" "Goda (2000)" h #0 PInf;
         XRange "Width of caisson upright section" "Goda (2000)" B #0 PInf] ws.
Proof.
  intros. unfold calculate_forces_and_reactions_tuple, calculate_forces_and_reactions. rewrite !bind_assoc. rewrite warns_bind.
  assert (V : exists r, value (pressures_of disper HD Hsi T beta h d B1 cot rho hacc Rc B s g) = Ok r).
  { unfold calculate_pressures_and_forces_tuple, calculate_pressures_and_forces. cbv zeta. mval.
    assert (A : exists a, value (if nge (nabs beta) #15 then ret (nabs beta - #15)%num else if nlt (nabs beta) #15 then ret #0 else raise UnboundLocalError) = Ok a).
    { destruct beta; [rewrite angle_fin| | |congruence]; eexists; reflexivity. }
    destruct A as (a & ->). mval.
    match goal with |- context [check_impulsive_breaking ?a ?b ?c ?d ?e ?f ?g ?h ?i] => destruct (impulsive_ok a b c d e f g h i) as (b' & Eb) end.
    rewrite Eb. mval. eexists. reflexivity. }
  destruct V as (r & ->). destruct r as [[[[[[[[[[[[[[[[FH FU] MH] MU] p1] p2] p3] p4] hc] pu] hb] eta] L] a1] a2] a3] b].
  eexists. split; [reflexivity|].
  destruct (calculate_bearing_pressures _ (frac * B)%num MH MU FU B) as [[[pe Me] We] te].
  destruct (calculate_safety_factors FU FH _ mu (frac * B)%num MH MU) as [sl ov].
  rewrite !bind_assoc. unfold check_validity_range. reports. cbn [when provided isnan negb]. rewrite !bind_ret_l. reports.
Qed.

(** ** Examples *)

(** Waves at 10 degrees with a design height of 2 m run up to 3 m, the top of
    the wall, where the pressure vanishes. *)
Example C33_example : exists FH FU MH MU p1 p2 p3 pu a1 a2 a3 b,
  value (pressures_of (fun _ _ _ => Fin 1) #2 #1 #6 #10 #5 #5 #1 #50 #1025 #4 #3 #3 NaN (Fin g0))
  = Ok (Fin FH, Fin FU, Fin MH, Fin MU, Fin p1, Fin p2, Fin p3, #0, #3, Fin pu, Fin (5 + 1 * 5 / 50), #3, Fin (2 * PI / 1), Fin a1, Fin a2, Fin a3, b).
Proof.
  assert (R10 : Rabs 10 = 10) by (apply Rabs_pos_eq; lra).
  assert (Ee : goda_eta 10 2 = 3).
  { unfold goda_eta, goda_cos, goda_angle. rewrite R10, Rmax_right by lra. unfold Rdiv. rewrite !Rmult_0_l, cos_0. lra. }
  destruct (C33_pressures (fun _ _ _ => Fin 1) 2 1 6 10 5 5 50 1025 4 3 3 g0 #1 NaN) as
    (FH & FU & MH & MU & p1 & p2 & p3 & p4 & hc & pu & hb & eta & k & a1 & a2 & a3 & b & V & Hk & Ed & Ehb & Eeta & _ & _ & _ & _ & _ & _ & _ & _ & Ec & _ & _ & _ & _ & _ & _ & _ & Z & _); try lra; try apply g0_pos.
  { intros w h g _ _ _. exists 1. split; [lra|reflexivity]. }
  injection Ed as <-. rewrite Ee in Eeta. rewrite Eeta in *. rewrite Rmin_left in Ec by lra. subst hc hb.
  assert (p4 = 0) by (apply Z; lra). subst p4. repeat eexists. exact V.
Qed.

(** The moment of the uplift on a caisson of 3 m is that of the resultant at 2 m. *)
Example C34_example : exists FH FU MH MU p1 p2 p3 p4 hc pu hb eta L a1 a2 a3 b,
  value (pressures_of (fun _ _ _ => Fin 1) #2 #1 #6 #10 #5 #5 #1 #50 #1025 #4 #3 #3 NaN (Fin g0))
  = Ok (FH, Fin FU, MH, Fin MU, p1, p2, p3, p4, hc, Fin pu, hb, eta, L, a1, a2, a3, b) /\ FU = 1.5 * pu /\ MU = 2 * FU.
Proof.
  assert (R10 : Rabs 10 = 10) by (apply Rabs_pos_eq; lra).
  destruct (C34_forces (fun _ _ _ => Fin 1) 2 1 6 10 5 5 50 1025 4 3 3 g0 #1 NaN) as
    (FH & FU & MH & MU & p1 & p2 & p3 & p4 & hc & pu & hb & eta & L & a1 & a2 & a3 & b & V & _ & _ & IF & IM & _); try lra; try apply g0_pos.
  { intros w h g _ _ _. exists 1. split; [lra|reflexivity]. }
  do 17 eexists. split; [exact V|].
  assert (E1 : FU = 1.5 * pu).
  { apply (integral_unique _ _ _ _ _ IF). apply (integral_piece _ 0 (pu / 3) 0); [lra| |lra]. intros x _. unfold goda_uplift. field. }
  split; [assumption|]. rewrite E1.
  apply (integral_unique _ _ _ _ _ IM). apply (integral_piece _ 0 0 (pu / 3)); [lra| |lra]. intros x _. unfold goda_uplift. field.
Qed.

(** A reaction in the middle of the base is uniform. *)
Example C35_example : calculate_bearing_pressures #3 #1 #0.5 #0.5 #1 #2 = (#1, #2, #2, #1).
Proof.
  rewrite bearing_value by (try lra; intros E; assert (3 * 1 - 0.5 - 0.5 = 2) by lra; rewrite H in E; lra).
  replace (3 * 1 - 0.5 - 0.5) with 2 by lra. replace (3 - 1) with 2 by lra. replace (2 / 2) with 1 by lra. rewrite Rleb_false by lra.
  repeat f_equal. lra.
Qed.

Example C36_example :
  value (check_impulsive_breaking #10 #1 #100 #30 #0.02 #2 #4 #3 #5) = Ok true
  /\ value (check_impulsive_breaking #10 #2 #100 #30 #0.02 #2 #4 #3 #6) = Ok false.
Proof.
  split.
  - destruct (C36_impulsive 10 1 100 30 0.02 2 4 3 5) as [[I E]|[[I E]|(N1 & N2 & E)]]; try lra; cbv zeta in E; rewrite E; try reflexivity.
    exfalso. apply N1. unfold impulsive_1. lra.
  - rewrite (C36_gap 10 2 100 30 0.02 2 4 3 6) by lra. reflexivity.
Qed.

Example C60_example : forall disper D,
  value (calculate_forces_and_reactions_dict disper #2 #1 #6 #10 #5 #5 #1 #50 #1025 #4 #3 #3 #2400 #2100 NaN #0.6 #0.5 (Fin g0)) = Ok D ->
  lookup "B_up" D = Some (ENum #3) /\ lookup "is_valid" D = Some ENone.
Proof.
  intros disper D. pose proof (C60_reactions_dictionary disper #2 #1 #6 #10 #5 #5 #1 #50 #1025 #4 #3 #3 #2400 #2100 NaN #0.6 #0.5 (Fin g0)) as C.
  destruct (value (reactions_of disper #2 #1 #6 #10 #5 #5 #1 #50 #1025 #4 #3 #3 #2400 #2100 NaN #0.6 #0.5 (Fin g0))) as [[[[[[[[[[FH FU] MH] MU] p1] pe] pu] b] sl] ov]|e].
  - destruct C as (D' & W & Me & We & te & V & _ & _ & _ & _ & Hv & Hm & _). intros E. rewrite V in E. injection E as <-.
    split; [|exact Hv]. cbn [map] in Hm. injection Hm as _ _ _ _ _ _ _ _ _ _ HB _. exact HB.
  - intros E. rewrite C in E. discriminate.
Qed.
