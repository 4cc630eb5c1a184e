(** The functions of Goda (1985) on finite arguments. *)
From Coq Require Import Reals Lra List Bool String.
From Verif.Lib Require Import Num Monad RTac NTac.
From Verif.Spec Require Import Waves Dispersion Caisson.
From Verif.Model Require Import CoreUtility CorePhysics Numpy Goda1985.
From Verif.Proofs Require Import Core Dispersion.
Import ListNotations.
Open Scope R_scope.

Lemma angle_fin (beta : R) :
  (if nge (nabs (Fin beta)) #15 then ret (nabs (Fin beta) - #15)%num
   else if nlt (nabs (Fin beta)) #15 then ret #0 else raise UnboundLocalError) = ret (Fin (goda_angle beta)).
Proof.
  unfold goda_angle. cbn [nabs]. rewrite nge_fin, nlt_fin. destruct (Rleb_spec 15 (Rabs beta)).
  - nfin. rewrite Rmax_left by lra. reflexivity.
  - rewrite Rltb_true by lra. rewrite Rmax_right by lra. reflexivity.
Qed.

Lemma goda_angle_range beta : Rabs beta <= 90 -> 0 <= goda_angle beta <= 75.
Proof. intros. unfold goda_angle. split; [apply Rmax_r|]. apply Rmax_lub; lra. Qed.

Lemma goda_cos_pos beta : Rabs beta <= 90 -> 0 < goda_cos beta <= 1.
Proof.
  intros H. apply goda_angle_range in H. unfold goda_cos. split; [|apply COS_bound].
  pose proof PI_RGT_0. apply cos_gt_0.
  - assert (0 <= goda_angle beta * PI) by (apply Rmult_le_pos; lra). lra.
  - assert (goda_angle beta * PI <= 75 * PI) by (apply Rmult_le_compat_r; lra). lra.
Qed.

Section Given.
Variables (disper : num -> num -> num -> num) (HD Hsi T beta h d cot rho hacc Rc B g k : R) (B1 s : num).
Hypotheses (HHD : 0 < HD) (HHs : 0 <= Hsi) (HT : 0 < T) (Hbeta : Rabs beta <= 90) (Hh : 0 < h) (Hd : 0 < d) (Hcot : 0 < cot) (Hg : 0 < g).
Hypothesis (Hk : 0 < k) (Ed : disper (Fin (2 * PI / T)) (Fin h) (Fin g) = Fin k).

Let hb := h + Hsi * 5 / cot.
Let eta := goda_eta beta HD.
Let a1 := goda_alpha1 k h.
Let a2 := goda_alpha2 hb d HD.
Let a3 := goda_alpha3 k h hacc.
Let p1 := goda_p1 beta a1 a2 rho g HD.
Let p2 := p1 / cosh (k * h).
Let p3 := a3 * p1.
Let p4 := if Rltb Rc eta then p1 * (1 - Rc / eta) else 0.
Let hc := Rmin eta Rc.
Let pu := goda_pu beta a1 a3 rho g HD.
Let FH := 0.5 * (p1 + p3) * hacc + 0.5 * (p1 + p4) * hc.
Let MH := 1 / 6 * (2 * p1 + p3) * hacc ^ 2 + 0.5 * (p1 + p4) * hacc * hc + 1 / 6 * (p1 + 2 * p4) * hc ^ 2.
Let FU := 0.5 * pu * B.
Let MU := 2 / 3 * FU * B.

Lemma goda_value :
  calculate_pressures_and_forces disper (Fin HD) (Fin Hsi) (Fin T) (Fin beta) (Fin h) (Fin d) B1 (Fin cot) (Fin rho) (Fin hacc) (Fin Rc) (Fin B) s (Fin g)
  = (b <- check_impulsive_breaking (Fin (Rabs beta)) B1 (Fin (2 * PI / k)) (Fin cot) s (Fin Rc) (Fin Hsi) (Fin d) (Fin h) ;;
     ret ((Fin FH, Fin FU, Fin MH, Fin MU, Fin p1, Fin p2, Fin p3, Fin p4, Fin hc, Fin pu, Fin hb, Fin eta, Fin (2 * PI / k), Fin a1, Fin a2, Fin a3, b),
       [("FH", ENum (Fin FH)); ("MH", ENum (Fin MH)); ("FU", ENum (Fin FU)); ("MU", ENum (Fin MU));
        ("hstar_c", ENum (Fin hc)); ("h_5Hs", ENum (Fin hb));
        ("p1", ENum (Fin p1)); ("p2", ENum (Fin p2)); ("p3", ENum (Fin p3)); ("p4", ENum (Fin p4)); ("pu", ENum (Fin pu));
        ("etastar", ENum (Fin eta));
        ("alpha1", ENum (Fin a1)); ("alpha2", ENum (Fin a2)); ("alpha3", ENum (Fin a3));
        ("HD", ENum (Fin HD)); ("Hsi", ENum (Fin Hsi)); ("Tmax", ENum (Fin T)); ("beta", ENum (Fin (Rabs beta)));
        ("h_s", ENum (Fin h)); ("d", ENum (Fin d)); ("L", ENum (Fin (2 * PI / k))); ("cota_seabed", ENum (Fin cot));
        ("rho_water", ENum (Fin rho)); ("hacc", ENum (Fin hacc)); ("Rc", ENum (Fin Rc)); ("Bup", ENum (Fin B));
        ("g", ENum (Fin g)); ("impulsive_breaking", EBool b)]%string))%num.
Proof.
  pose proof PI_RGT_0 as HPI. pose proof (goda_cos_pos beta Hbeta) as Hc.
  assert (Hkh : 0 < k * h) by (apply Rmult_lt_0_compat; assumption).
  assert (Hs : 0 < sinh (2 * k * h)) by (apply sinh_pos; lra).
  pose proof (cosh_pos (k * h)) as Hch.
  assert (Hhb : 0 < hb). { unfold hb. assert (0 <= Hsi * 5 / cot) by (apply Rmult_le_pos; [lra|left; apply Rinv_0_lt_compat; assumption]). lra. }
  assert (Heta : 0 < eta). { unfold eta, goda_eta. apply Rmult_lt_0_compat; [lra|assumption]. }
  unfold calculate_pressures_and_forces. cbv zeta. rewrite angle_fin. rewrite bind_ret_l.
  assert (E : ncos (deg2rad (Fin (goda_angle beta))) = Fin (goda_cos beta)).
  { unfold deg2rad, npi. rewrite ndiv_fin by lra. nfin. unfold goda_cos. do 2 f_equal. field. } rewrite !E; clear E.
  assert (E : local_wavelength disper (Fin T) (Fin h) (Fin g) = Fin (2 * PI / k)).
  { unfold local_wavelength, two_pi, npi. rewrite nmul_fin, !ndiv_fin by lra. rewrite Ed. rewrite ndiv_fin by lra. reflexivity. } rewrite !E; clear E.
  assert (E : (#4 * npi * Fin h / Fin (2 * PI / k))%num = Fin (2 * k * h)).
  { unfold npi. rewrite !nmul_fin, ndiv_fin by (apply Rgt_not_eq; apply Rdiv_lt_0_compat; lra). f_equal. field. lra. } rewrite !E; clear E.
  assert (E : (#2 * npi * Fin h / Fin (2 * PI / k))%num = Fin (k * h)).
  { unfold npi. rewrite !nmul_fin, ndiv_fin by (apply Rgt_not_eq; apply Rdiv_lt_0_compat; lra). f_equal. field. lra. } rewrite !E; clear E.
  assert (E : (Fin h + Fin Hsi * #5 / Fin cot)%num = Fin hb).
  { rewrite nmul_fin, ndiv_fin by lra. reflexivity. } rewrite !E; clear E.
  rewrite nsinh_fin, ncosh_fin.
  assert (E : (#0.6 + #0.5 * npow (Fin (2 * k * h) / Fin (sinh (2 * k * h))) #2)%num = Fin a1).
  { rewrite ndiv_fin by lra. rewrite npow_fin_2, nmul_fin. reflexivity. } rewrite !E; clear E.
  assert (E : nmin ((Fin hb - Fin d) / (#3 * Fin hb) * npow (Fin HD / Fin d) #2) (#2 * Fin d / Fin HD) = Fin a2).
  { rewrite !nmul_fin, nsub_fin, !ndiv_fin by lra. rewrite npow_fin_2, nmul_fin, nmin_fin. reflexivity. } rewrite !E; clear E.
  assert (E : (#1 - Fin hacc / Fin h * (#1 - #1 / Fin (cosh (k * h))))%num = Fin a3).
  { rewrite !ndiv_fin by lra. rewrite nsub_fin, nmul_fin, nsub_fin. reflexivity. } rewrite !E; clear E.
  assert (E : (#0.5 * (#1 + Fin (goda_cos beta)) * (Fin a1 + Fin a2 * npow (Fin (goda_cos beta)) #2) * Fin rho * Fin g * Fin HD)%num = Fin p1).
  { rewrite npow_fin_2, !nadd_fin, !nmul_fin. reflexivity. } rewrite !E; clear E.
  assert (E : (#0.5 * (#1 + Fin (goda_cos beta)) * Fin a1 * Fin a3 * Fin rho * Fin g * Fin HD)%num = Fin pu).
  { rewrite !nadd_fin, !nmul_fin. reflexivity. } rewrite !E; clear E.
  assert (E : (#0.75 * (#1 + Fin (goda_cos beta)) * Fin HD)%num = Fin eta) by reflexivity. rewrite !E; clear E.
  assert (E : (if ngt (Fin eta) (Fin Rc) then Fin p1 * (#1 - Fin Rc / Fin eta) else #0)%num = Fin p4).
  { rewrite ndiv_fin by lra. unfold p4. cbn [ngt nlt]. destruct (Rltb Rc eta); reflexivity. } rewrite !E; clear E.
  rewrite (ndiv_fin p1) by lra. rewrite nmin_fin. rewrite !npow_fin_2. rewrite !(ndiv_fin 1), !(ndiv_fin 2) by lra.
  reflexivity.
Qed.
End Given.

Lemma impulsive_ok beta B1 L cot s Rc Hsi d h : exists b, value (check_impulsive_breaking beta B1 L cot s Rc Hsi d h) = Ok b.
Proof.
  unfold check_impulsive_breaking, check_true.
  repeat match goal with |- context [if ?c then _ else _] => destruct c end; mval; rewrite ?value_check; eexists; reflexivity.
Qed.
