(** Property C65: what validity checks with arrays report. *)
From Coq Require Import Reals Lra Lia List Bool Arith String.
From Verif.Lib Require Import Num Monad Arr ArrFlags ArrLoop RTac NTac.
From Verif.Spec Require Import Arrays ArrayWarnings.
From Verif.Model Require Import CoreUtility ArrCore.
From Verif.Proofs Require Import Core CheckTac Arrays ArrayWarnings.
From Verif.Model Require ArrCrestWall2019 CrestWall2019 ArrCubes Cubes ArrDAngremond1996 DAngremond1996 ArrDeRidder2024 DeRidder2024 ArrDeRidder2026 DeRidder2026 ArrEtemadShahidi2020 EtemadShahidi2020 ArrEtemadShahidi2021 EtemadShahidi2021 ArrGerding1993 Gerding1993 ArrHudsonUnits HudsonUnits ArrJumelet2024 Jumelet2024 ArrKramerBurcharth2004 KramerBurcharth2004 ArrOvertoppingEurotop2018 OvertoppingEurotop2018 ArrOvertoppingTAW2002 OvertoppingTAW2002 ArrRearVanGent2007 RearVanGent2007 ArrRearVanGentPozueta2004 RearVanGentPozueta2004 ArrRunupTAW2002 RunupTAW2002 ArrScaravaglione2025 Scaravaglione2025 ArrVanGent2024Setup VanGent2024Setup ArrVanGentVanderWerf2014 VanGentVanderWerf2014 ArrVanderMeer1988 VanderMeer1988 ArrVanderMeer1988Modified VanderMeer1988Modified ArrVanderMeer1998 VanderMeer1998.
Import ListNotations.
Open Scope nat_scope.

Theorem C65_crestwall2019_check : forall Rc Ac Hm0 Fb beta,
  reports_places [Rc; Ac; Hm0; Fb; beta]
    (ArrCrestWall2019.check_validity Rc Ac Hm0 Fb beta)
    (fun at_ => CrestWall2019.check_validity (at_ Rc) (at_ Ac) (at_ Hm0) (at_ Fb) (at_ beta)).
Proof. intros. unfold ArrCrestWall2019.check_validity, CrestWall2019.check_validity. reports_tac. told_tac. Qed.

Theorem C65_cubes_check : forall Hs Tm rho_armour N_waves cot_alpha,
  reports_places [Hs; Tm; rho_armour; N_waves; cot_alpha]
    (ArrCubes.check_validity_range Hs Tm rho_armour N_waves cot_alpha)
    (fun at_ => Cubes.check_validity_range (at_ Hs) (at_ Tm) (at_ rho_armour) (at_ N_waves) (at_ cot_alpha)).
Proof. intros. unfold ArrCubes.check_validity_range, Cubes.check_validity_range. reports_tac. told_tac. Qed.

Theorem C65_dangremond1996_check : forall Kt s0p Hsi_over_h Rc_over_Hsi,
  reports_places [Kt; s0p; Hsi_over_h; Rc_over_Hsi]
    (ArrDAngremond1996.check_validity Kt s0p Hsi_over_h Rc_over_Hsi)
    (fun at_ => DAngremond1996.check_validity (at_ Kt) (at_ s0p) (at_ Hsi_over_h) (at_ Rc_over_Hsi)).
Proof. intros. unfold ArrDAngremond1996.check_validity, DAngremond1996.check_validity. reports_tac. told_tac. Qed.

Theorem C65_deridder2024_check : forall h Hm0 Hm0_HF Hm0_LF Tmm10 Tmm10_HF Rc cot_alpha m_foreshore_slope Dn50,
  reports_places [h; Hm0; Hm0_HF; Hm0_LF; Tmm10; Tmm10_HF; Rc; cot_alpha; m_foreshore_slope; Dn50]
    (ArrDeRidder2024.check_validity_range h Hm0 Hm0_HF Hm0_LF Tmm10 Tmm10_HF Rc cot_alpha m_foreshore_slope Dn50)
    (fun at_ => DeRidder2024.check_validity_range (at_ h) (at_ Hm0) (at_ Hm0_HF) (at_ Hm0_LF) (at_ Tmm10) (at_ Tmm10_HF) (at_ Rc) (at_ cot_alpha) (at_ m_foreshore_slope) (at_ Dn50)).
Proof. intros. unfold ArrDeRidder2024.check_validity_range, DeRidder2024.check_validity_range. reports_tac. told_tac. Qed.

Theorem C65_deridder2026_check : forall h Hm0 Hm0_HF Hm0_LF Tmm10 Tmm10_HF Rc Dn50 theta,
  reports_places [h; Hm0; Hm0_HF; Hm0_LF; Tmm10; Tmm10_HF; Rc; Dn50; theta]
    (ArrDeRidder2026.check_validity_range h Hm0 Hm0_HF Hm0_LF Tmm10 Tmm10_HF Rc Dn50 theta)
    (fun at_ => DeRidder2026.check_validity_range (at_ h) (at_ Hm0) (at_ Hm0_HF) (at_ Hm0_LF) (at_ Tmm10) (at_ Tmm10_HF) (at_ Rc) (at_ Dn50) (at_ theta)).
Proof. intros. unfold ArrDeRidder2026.check_validity_range, DeRidder2026.check_validity_range. reports_tac. told_tac. Qed.

Theorem C65_etemadshahidi2020_check : forall Hs Tmm10 N_waves cot_alpha P S Dn50 Dn50_core rho_armour rho_water,
  reports_places [Hs; Tmm10; N_waves; cot_alpha; P; S; Dn50; Dn50_core; rho_armour; rho_water]
    (ArrEtemadShahidi2020.check_validity_range Hs Tmm10 N_waves cot_alpha P S Dn50 Dn50_core rho_armour rho_water)
    (fun at_ => EtemadShahidi2020.check_validity_range (at_ Hs) (at_ Tmm10) (at_ N_waves) (at_ cot_alpha) (at_ P) (at_ S) (at_ Dn50) (at_ Dn50_core) (at_ rho_armour) (at_ rho_water)).
Proof. intros. unfold ArrEtemadShahidi2020.check_validity_range, EtemadShahidi2020.check_validity_range. reports_tac. told_tac. Qed.

Theorem C65_etemadshahidi2021_check : forall Hs Tmm10 h ht Bt Dn50 m Nod cot_alpha_armour_slope rho_armour rho_water,
  reports_places [Hs; Tmm10; h; ht; Bt; Dn50; m; Nod; cot_alpha_armour_slope; rho_armour; rho_water]
    (ArrEtemadShahidi2021.check_validity Hs Tmm10 h ht Bt Dn50 m Nod cot_alpha_armour_slope rho_armour rho_water)
    (fun at_ => EtemadShahidi2021.check_validity (at_ Hs) (at_ Tmm10) (at_ h) (at_ ht) (at_ Bt) (at_ Dn50) (at_ m) (at_ Nod) (at_ cot_alpha_armour_slope) (at_ rho_armour) (at_ rho_water)).
Proof. intros. unfold ArrEtemadShahidi2021.check_validity, EtemadShahidi2021.check_validity. reports_tac. told_tac. Qed.

Theorem C65_etemadshahidi2021_check_Hs_ht : forall Hs ht,
  reports_places [Hs; ht]
    (ArrEtemadShahidi2021.check_validity_Hs_ht Hs ht)
    (fun at_ => EtemadShahidi2021.check_validity_Hs_ht (at_ Hs) (at_ ht)).
Proof. intros. unfold ArrEtemadShahidi2021.check_validity_Hs_ht, EtemadShahidi2021.check_validity_Hs_ht, ArrEtemadShahidi2021.check_validity, EtemadShahidi2021.check_validity. reports_tac. told_tac. Qed.

Theorem C65_gerding1993_check : forall ht h Dn50,
  reports_places [ht; h; Dn50]
    (ArrGerding1993.check_validity ht h Dn50)
    (fun at_ => Gerding1993.check_validity (at_ ht) (at_ h) (at_ Dn50)).
Proof. intros. unfold ArrGerding1993.check_validity, Gerding1993.check_validity. reports_tac. told_tac. Qed.

Theorem C65_hudsonunits_accropode2_check : forall cot_alpha seabed_slope_perc,
  reports_places [cot_alpha; seabed_slope_perc]
    (ArrHudsonUnits.accropode2_check_validity_range cot_alpha seabed_slope_perc)
    (fun at_ => HudsonUnits.accropode2_check_validity_range (at_ cot_alpha) (at_ seabed_slope_perc)).
Proof. intros. unfold ArrHudsonUnits.accropode2_check_validity_range, HudsonUnits.accropode2_check_validity_range. reports_tac. told_tac. Qed.

Theorem C65_hudsonunits_accropode_check : forall cot_alpha seabed_slope_perc,
  reports_places [cot_alpha; seabed_slope_perc]
    (ArrHudsonUnits.accropode_check_validity_range cot_alpha seabed_slope_perc)
    (fun at_ => HudsonUnits.accropode_check_validity_range (at_ cot_alpha) (at_ seabed_slope_perc)).
Proof. intros. unfold ArrHudsonUnits.accropode_check_validity_range, HudsonUnits.accropode_check_validity_range. reports_tac. told_tac. Qed.

Theorem C65_hudsonunits_core_loc_check : forall cot_alpha seabed_slope_perc,
  reports_places [cot_alpha; seabed_slope_perc]
    (ArrHudsonUnits.core_loc_check_validity_range cot_alpha seabed_slope_perc)
    (fun at_ => HudsonUnits.core_loc_check_validity_range (at_ cot_alpha) (at_ seabed_slope_perc)).
Proof. intros. unfold ArrHudsonUnits.core_loc_check_validity_range, HudsonUnits.core_loc_check_validity_range. reports_tac. told_tac. Qed.

Theorem C65_jumelet2024_check : forall Hs Tmm10 N_waves cot_alpha,
  reports_places [Hs; Tmm10; N_waves; cot_alpha]
    (ArrJumelet2024.check_validity_range Hs Tmm10 N_waves cot_alpha)
    (fun at_ => Jumelet2024.check_validity_range (at_ Hs) (at_ Tmm10) (at_ N_waves) (at_ cot_alpha)).
Proof. intros. unfold ArrJumelet2024.check_validity_range, Jumelet2024.check_validity_range. reports_tac. told_tac. Qed.

Theorem C65_kramerburcharth2004_check : forall Rc Dn50,
  reports_places [Rc; Dn50]
    (ArrKramerBurcharth2004.check_validity_range Rc Dn50)
    (fun at_ => KramerBurcharth2004.check_validity_range (at_ Rc) (at_ Dn50)).
Proof. intros. unfold ArrKramerBurcharth2004.check_validity_range, KramerBurcharth2004.check_validity_range. reports_tac. told_tac. Qed.

Theorem C65_overtoppingeurotop2018_check : forall cot_alpha,
  reports_places [cot_alpha]
    (ArrOvertoppingEurotop2018.check_validity_range_rubble_mound cot_alpha)
    (fun at_ => OvertoppingEurotop2018.check_validity_range_rubble_mound (at_ cot_alpha)).
Proof. intros. unfold ArrOvertoppingEurotop2018.check_validity_range_rubble_mound, OvertoppingEurotop2018.check_validity_range_rubble_mound. reports_tac. told_tac. Qed.

Theorem C65_overtoppingtaw2002_check : forall Hm0 Tmm10 beta cot_alpha cot_alpha_down cot_alpha_up gamma_f gamma_b gamma_beta gamma_v,
  reports_places [Hm0; Tmm10; beta; cot_alpha; cot_alpha_down; cot_alpha_up; gamma_f; gamma_b; gamma_beta; gamma_v]
    (ArrOvertoppingTAW2002.check_validity_range Hm0 Tmm10 beta cot_alpha cot_alpha_down cot_alpha_up gamma_f gamma_b gamma_beta gamma_v)
    (fun at_ => OvertoppingTAW2002.check_validity_range (at_ Hm0) (at_ Tmm10) (at_ beta) (at_ cot_alpha) (at_ cot_alpha_down) (at_ cot_alpha_up) (at_ gamma_f) (at_ gamma_b) (at_ gamma_beta) (at_ gamma_v)).
Proof. intros. unfold ArrOvertoppingTAW2002.check_validity_range, OvertoppingTAW2002.check_validity_range. reports_tac. told_tac. Qed.

Theorem C65_rearvangent2007_check : forall Rc Rc2_front Rc2_rear Gc Dn50 B_element h Hs Tmm10 z1p S N_waves,
  reports_places [Rc; Rc2_front; Rc2_rear; Gc; Dn50; B_element; h; Hs; Tmm10; z1p; S; N_waves]
    (ArrRearVanGent2007.check_validity_range Rc Rc2_front Rc2_rear Gc Dn50 B_element h Hs Tmm10 z1p S N_waves)
    (fun at_ => RearVanGent2007.check_validity_range (at_ Rc) (at_ Rc2_front) (at_ Rc2_rear) (at_ Gc) (at_ Dn50) (at_ B_element) (at_ h) (at_ Hs) (at_ Tmm10) (at_ z1p) (at_ S) (at_ N_waves)).
Proof. intros. unfold ArrRearVanGent2007.check_validity_range, RearVanGent2007.check_validity_range. reports_tac. told_tac. Qed.

Theorem C65_rearvangentpozueta2004_check : forall Rc Rc_rear cot_phi gamma_f Dn50 rho_rock rho_water Bc Hs Tmm10 z1p S N_waves,
  reports_places [Rc; Rc_rear; cot_phi; gamma_f; Dn50; rho_rock; rho_water; Bc; Hs; Tmm10; z1p; S; N_waves]
    (ArrRearVanGentPozueta2004.check_validity_range Rc Rc_rear cot_phi gamma_f Dn50 rho_rock rho_water Bc Hs Tmm10 z1p S N_waves)
    (fun at_ => RearVanGentPozueta2004.check_validity_range (at_ Rc) (at_ Rc_rear) (at_ cot_phi) (at_ gamma_f) (at_ Dn50) (at_ rho_rock) (at_ rho_water) (at_ Bc) (at_ Hs) (at_ Tmm10) (at_ z1p) (at_ S) (at_ N_waves)).
Proof. intros. unfold ArrRearVanGentPozueta2004.check_validity_range, RearVanGentPozueta2004.check_validity_range. reports_tac. told_tac. Qed.

Theorem C65_runuptaw2002_check : forall Hm0 Tmm10 gamma_f gamma_b gamma_beta cot_alpha,
  reports_places [Hm0; Tmm10; gamma_f; gamma_b; gamma_beta; cot_alpha]
    (ArrRunupTAW2002.check_validity_range Hm0 Tmm10 gamma_f gamma_b gamma_beta cot_alpha)
    (fun at_ => RunupTAW2002.check_validity_range (at_ Hm0) (at_ Tmm10) (at_ gamma_f) (at_ gamma_b) (at_ gamma_beta) (at_ cot_alpha)).
Proof. intros. unfold ArrRunupTAW2002.check_validity_range, RunupTAW2002.check_validity_range. reports_tac. told_tac. Qed.

Theorem C65_scaravaglione2025_check : forall Hm0 Tmm10 N_waves cot_alpha P Dn50 Dn50_core rho_armour rho_water,
  reports_places [Hm0; Tmm10; N_waves; cot_alpha; P; Dn50; Dn50_core; rho_armour; rho_water]
    (ArrScaravaglione2025.check_validity_range Hm0 Tmm10 N_waves cot_alpha P Dn50 Dn50_core rho_armour rho_water)
    (fun at_ => Scaravaglione2025.check_validity_range (at_ Hm0) (at_ Tmm10) (at_ N_waves) (at_ cot_alpha) (at_ P) (at_ Dn50) (at_ Dn50_core) (at_ rho_armour) (at_ rho_water)).
Proof. intros. unfold ArrScaravaglione2025.check_validity_range, Scaravaglione2025.check_validity_range. reports_tac. told_tac. Qed.

Theorem C65_vangent2024setup_check : forall Hm0 Tmm10 Rc B hc Dn50 s,
  reports_places [Hm0; Tmm10; Rc; B; hc; Dn50]
    (ArrVanGent2024Setup.check_validity_range Hm0 Tmm10 Rc B hc Dn50 s)
    (fun at_ => VanGent2024Setup.check_validity_range (at_ Hm0) (at_ Tmm10) (at_ Rc) (at_ B) (at_ hc) (at_ Dn50) s).
Proof. intros. unfold ArrVanGent2024Setup.check_validity_range, VanGent2024Setup.check_validity_range. destruct s; reports_tac; told_tac. Qed.

Theorem C65_vangentvanderwerf2014_check : forall Hs tt ht cot_alpha_armour_slope,
  reports_places [Hs; tt; ht; cot_alpha_armour_slope]
    (ArrVanGentVanderWerf2014.check_validity Hs tt ht cot_alpha_armour_slope)
    (fun at_ => VanGentVanderWerf2014.check_validity (at_ Hs) (at_ tt) (at_ ht) (at_ cot_alpha_armour_slope)).
Proof. intros. unfold ArrVanGentVanderWerf2014.check_validity, VanGentVanderWerf2014.check_validity. reports_tac. told_tac. Qed.

Theorem C65_vandermeer1988_check : forall Hs H2p Tp N_waves cot_alpha P rho_armour,
  reports_places [Hs; H2p; Tp; N_waves; cot_alpha; P; rho_armour]
    (ArrVanderMeer1988.check_validity_range Hs H2p Tp N_waves cot_alpha P rho_armour)
    (fun at_ => VanderMeer1988.check_validity_range (at_ Hs) (at_ H2p) (at_ Tp) (at_ N_waves) (at_ cot_alpha) (at_ P) (at_ rho_armour)).
Proof. intros. unfold ArrVanderMeer1988.check_validity_range, VanderMeer1988.check_validity_range. reports_tac. told_tac. Qed.

Theorem C65_vandermeer1988modified_check : forall Hs H2p Tmm10 N_waves cot_alpha P Dn50 rho_armour rho_water,
  reports_places [Hs; H2p; Tmm10; N_waves; cot_alpha; P; Dn50; rho_armour; rho_water]
    (ArrVanderMeer1988Modified.check_validity_range Hs H2p Tmm10 N_waves cot_alpha P Dn50 rho_armour rho_water)
    (fun at_ => VanderMeer1988Modified.check_validity_range (at_ Hs) (at_ H2p) (at_ Tmm10) (at_ N_waves) (at_ cot_alpha) (at_ P) (at_ Dn50) (at_ rho_armour) (at_ rho_water)).
Proof. intros. unfold ArrVanderMeer1988Modified.check_validity_range, VanderMeer1988Modified.check_validity_range. reports_tac. told_tac. Qed.

Theorem C65_vandermeer1988modified_check_2021 : forall Hs N_waves cot_alpha P rho_armour,
  reports_places [Hs; N_waves; cot_alpha; P; rho_armour]
    (ArrVanderMeer1988Modified.check_2021 Hs N_waves cot_alpha P rho_armour)
    (fun at_ => VanderMeer1988Modified.check_2021 (at_ Hs) (at_ N_waves) (at_ cot_alpha) (at_ P) (at_ rho_armour)).
Proof. intros. unfold ArrVanderMeer1988Modified.check_2021, VanderMeer1988Modified.check_2021, ArrVanderMeer1988.check_validity_range, VanderMeer1988.check_validity_range. reports_tac. told_tac. Qed.

Theorem C65_vandermeer1998_check : forall Hs ht h Dn50 Nod Delta,
  reports_places [Hs; ht; h; Dn50; Nod; Delta]
    (ArrVanderMeer1998.check_validity Hs ht h Dn50 Nod Delta)
    (fun at_ => VanderMeer1998.check_validity (at_ Hs) (at_ ht) (at_ h) (at_ Dn50) (at_ Nod) (at_ Delta)).
Proof. intros. unfold ArrVanderMeer1998.check_validity, VanderMeer1998.check_validity. reports_tac. told_tac. Qed.

(** Rc / Dn50 is 1 at the first place and 5 at the second: the warnings are those of the
    second place, of which there is one. *)
Example C65_example :
  (forall w, In w (warns (ArrKramerBurcharth2004.check_validity_range (Ar [Fin 1; Fin 5]) (lit 1)))
     <-> In w (warns (KramerBurcharth2004.check_validity_range (Fin 5) (Fin 1))))
  /\ List.length (warns (KramerBurcharth2004.check_validity_range (Fin 5) (Fin 1))) = 1.
Proof.
  assert (D : forall x, (Fin x / Fin 1)%num = Fin x) by (intros x; nfin; f_equal; field).
  assert (C : forall x, KramerBurcharth2004.check_validity_range (Fin x) (Fin 1)
    = check "Relative crest height Rc / Dn50" "Kramer & Burcharth, 2004" (Fin x) (- #3.1)%num #1.5%num).
  { intros x. rewrite <- (D x) at 2. reflexivity. }
  assert (W1 : warns (KramerBurcharth2004.check_validity_range (Fin 1) (Fin 1)) = []).
  { rewrite C. unfold check, check_variable_validity_range, check_values, ngt. nfin. rewrite !Rltb_false by lra. reflexivity. }
  split.
  - intros w. destruct (C65_kramerburcharth2004_check (Ar [Fin 1; Fin 5]) (lit 1) (Some 2)) as (_ & W).
    + split; [repeat (constructor; [solve [unfold stretches; cbn; auto 6]|]); constructor|]. right. apply Exists_cons_hd. reflexivity.
    + discriminate.
    + repeat (constructor; [left; split; [discriminate|repeat (constructor; [reflexivity|]); constructor]|]). constructor.
    + rewrite W. split.
      * intros (i & I & H). cbn in I. destruct i as [|[|i]]; [|exact H|lia].
        change (In w (warns (KramerBurcharth2004.check_validity_range (Fin 1) (Fin 1)))) in H. rewrite W1 in H. destruct H.
      * intros H. exists 1. split; [cbn; lia|exact H].
  - rewrite C. unfold check, check_variable_validity_range, check_values, ngt. nfin. rewrite (Rltb_true 1.5 5) by lra. rewrite orb_true_r. reflexivity.
Qed.
