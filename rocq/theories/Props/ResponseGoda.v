(** Property C79, caissons: larger and longer waves load a caisson more, and make it less safe. *)
From Coq Require Import Reals Lra List Bool String Psatz.
From Verif.Lib Require Import Num Monad RTac NTac.
From Verif.Spec Require Import Waves Dispersion Caisson Response.
From Verif.Model Require Import CoreUtility CorePhysics Numpy Goda1985.
From Verif.Proofs Require Import Core Dispersion Goda Loads.
From Verif.Props Require Import CaissonGoda.
Import ListNotations.
Open Scope R_scope.

Lemma loads_value disper HD Hsi T beta h d cot rho hacc Rc B g k (B1 s : num) :
  0 < HD -> 0 <= Hsi -> 0 < T -> Rabs beta <= 90 -> 0 < h -> 0 < d -> 0 < cot -> 0 < g -> 0 < k -> 0 <= Rc ->
  disper (Fin (2 * PI / T)) (Fin h) (Fin g) = Fin k ->
  let eta := goda_eta beta HD in let a1 := goda_alpha1 k h in let a2 := goda_alpha2 (h + Hsi * 5 / cot) d HD in let a3 := goda_alpha3 k h hacc in
  let p1 := goda_p1 beta a1 a2 rho g HD in let pu := goda_pu beta a1 a3 rho g HD in
  exists p2 p4 hc hb b,
  value (pressures_of disper (Fin HD) (Fin Hsi) (Fin T) (Fin beta) (Fin h) (Fin d) B1 (Fin cot) (Fin rho) (Fin hacc) (Fin Rc) (Fin B) s (Fin g))
  = Ok (Fin (p1 * (0.5 * (1 + a3) * hacc + 0.5 * cut_force eta Rc)), Fin (0.5 * pu * B),
        Fin (p1 * (1 / 6 * (2 + a3) * hacc ^ 2 + (0.5 * hacc * cut_force eta Rc + 1 / 6 * cut_moment eta Rc))), Fin (2 / 3 * (0.5 * pu * B) * B),
        Fin p1, Fin p2, Fin (a3 * p1), p4, hc, Fin pu, hb, Fin eta, Fin (2 * PI / k), Fin a1, Fin a2, Fin a3, b)
  /\ p2 = p1 * (1 / cosh (k * h)).
Proof.
  intros HHD HHs HT Hb Hh Hd Hcot Hg Hk HRc Ed eta a1 a2 a3 p1 pu.
  pose proof (goda_cos_pos beta Hb) as Hc. assert (He : 0 < eta) by (unfold eta, goda_eta; apply Rmult_lt_0_compat; [lra|assumption]).
  destruct (impulsive_ok (Fin (Rabs beta)) B1 (Fin (2 * PI / k)) (Fin cot) s (Fin Rc) (Fin Hsi) (Fin d) (Fin h)) as (b & Eb).
  exists (p1 / cosh (k * h)). do 4 eexists. split.
  - unfold calculate_pressures_and_forces_tuple. rewrite (goda_value disper HD Hsi T beta h d cot rho hacc Rc B g k) by (assumption || lra).
    mval. rewrite Eb. mval. cbn [fst]. fold eta a1 a2 a3 p1 pu.
    set (p4 := if Rltb Rc eta then p1 * (1 - Rc / eta) else 0).
    assert (E4 : p4 = p1 * (1 - Rmin eta Rc / eta)).
    { unfold p4. destruct (Rltb_spec Rc eta); [rewrite Rmin_right by lra; reflexivity|]. rewrite Rmin_left by lra. field. lra. }
    rewrite E4.
    match goal with |- Ok (Fin ?a, _, Fin ?c, _, _, _, _, _, _, _, _, _, _, _, _, _, _) = Ok (Fin ?a', _, Fin ?c', _, _, _, _, _, _, _, _, _, _, _, _, _, _) =>
      replace a with a' by (unfold cut_force; dec; field; lra); replace c with c' by (unfold cut_force, cut_moment; dec; field; lra) end.
    reflexivity.
  - pose proof (cosh_pos (k * h)). unfold Rdiv. ring.
Qed.

(** Something a bit stronger than [higher]: both are positive. *)
Lemma p1_higher beta beta' k k' h hb hb' d rho rho' g HD HD' :
  0 < h -> 0 < k' <= k -> Rabs beta' <= Rabs beta <= 90 -> 0 < d <= hb -> hb <= hb' -> 0 < rho <= rho' -> 0 < g -> 0 < HD <= HD' ->
  let p1 := goda_p1 beta (goda_alpha1 k h) (goda_alpha2 hb d HD) rho g HD in
  let p1' := goda_p1 beta' (goda_alpha1 k' h) (goda_alpha2 hb' d HD') rho' g HD' in
  0 < p1 /\ higher (HD < HD' \/ k' < k \/ rho < rho' \/ (Rabs beta' < Rabs beta /\ 15 < Rabs beta)) p1 p1'.
Proof.
  intros Hh Hk Hb Hd Hhb Hrho Hg HHD p1 p1'. pose proof (goda_cos_higher beta beta' Hb) as C. pose proof (goda_cos_pos beta ltac:(lra)) as Cp. pose proof (goda_cos_pos beta' ltac:(lra)) as Cp'.
  pose proof (alpha1_higher k k' h Hh Hk) as A1. pose proof (alpha1_range k h ltac:(lra) Hh) as A1p.
  pose proof (alpha2_higher hb hb' d HD HD' Hd Hhb HHD) as A2. pose proof (alpha2_nonneg hb d HD ltac:(lra) Hd ltac:(lra)) as A2p.
  set (c := goda_cos beta) in *. set (c' := goda_cos beta') in *.
  assert (E : p1 = (0.5 * g) * (1 + c) * (goda_alpha1 k h * HD + goda_alpha2 hb d HD * HD * c ^ 2) * rho) by (unfold p1, goda_p1; fold c; ring).
  assert (E' : p1' = (0.5 * g) * (1 + c') * (goda_alpha1 k' h * HD' + goda_alpha2 hb' d HD' * HD' * c' ^ 2) * rho') by (unfold p1', goda_p1; fold c'; ring).
  rewrite E, E'. clear E E' p1 p1'. set (a1 := goda_alpha1 k h) in *. set (a1' := goda_alpha1 k' h) in *. set (q := goda_alpha2 hb d HD * HD) in *. set (q' := goda_alpha2 hb' d HD' * HD') in *.
  assert (Q : 0 <= q) by (unfold q; apply Rmult_le_pos; lra).
  assert (S1 : higher (HD < HD' \/ k' < k) (a1 * HD) (a1' * HD')).
  { eapply higher_weaken; [|exact (higher_mul _ _ a1 a1' HD HD' ltac:(lra) ltac:(lra) A1 (higher_self HD HD' ltac:(lra)))]. tauto. }
  assert (S2 : q * c ^ 2 <= q' * c' ^ 2).
  { destruct C as [C _]. apply Rmult_le_compat; [assumption|apply pow2_ge_0|assumption|]. apply pow_incr. lra. }
  assert (P : 0 < a1 * HD + q * c ^ 2). { assert (0 < a1 * HD) by (apply Rmult_lt_0_compat; lra). assert (0 <= q * c ^ 2) by (apply Rmult_le_pos; [assumption|apply pow2_ge_0]). lra. }
  assert (G : 0 < 0.5 * g * (1 + c)) by (apply Rmult_lt_0_compat; lra).
  assert (S3 : higher (Rabs beta' < Rabs beta /\ 15 < Rabs beta) (0.5 * g * (1 + c)) (0.5 * g * (1 + c'))).
  { destruct C as [C1 C2]. split; [apply Rmult_le_compat_l; lra|]. intros S. specialize (C2 S). apply Rmult_lt_compat_l; lra. }
  split; [apply Rmult_lt_0_compat; [apply Rmult_lt_0_compat; assumption|lra]|].
  eapply higher_weaken; [|apply higher_mul; [apply Rmult_lt_0_compat; assumption|lra|apply higher_mul; [assumption|assumption|exact S3|apply higher_add; [exact S1|apply higher_le; exact S2]]|apply higher_self; lra]].
  tauto.
Qed.

Lemma loads_grow : forall disper HD HD' Hsi Hsi' T T' beta beta' h d cot rho rho' hacc Rc Rc' B B' g (B1 B1' s s' : num),
  solves_dispersion disper ->
  0 < HD <= HD' -> 0 <= Hsi <= Hsi' -> 0 < T <= T' -> Rabs beta' <= Rabs beta <= 90 -> 0 < h -> 0 < cot -> 0 < g -> 0 < rho <= rho' ->
  0 < d <= h + Hsi * 5 / cot -> 0 < hacc <= h -> 0 <= Rc <= Rc' -> 0 < B <= B' ->
  let more := HD < HD' \/ T < T' \/ rho < rho' \/ (Rabs beta' < Rabs beta /\ 15 < Rabs beta) in
  exists FH FU MH MU p1 p2 p3 p4 hc pu hb eta L a1 a2 a3 b FH' FU' MH' MU' p1' p2' p3' p4' hc' pu' hb' eta' L' a1' a2' a3' b',
    value (pressures_of disper (Fin HD) (Fin Hsi) (Fin T) (Fin beta) (Fin h) (Fin d) B1 (Fin cot) (Fin rho) (Fin hacc) (Fin Rc) (Fin B) s (Fin g))
    = Ok (Fin FH, Fin FU, Fin MH, Fin MU, Fin p1, Fin p2, Fin p3, p4, hc, Fin pu, hb, Fin eta, L, a1, a2, a3, b)
    /\ value (pressures_of disper (Fin HD') (Fin Hsi') (Fin T') (Fin beta') (Fin h) (Fin d) B1' (Fin cot) (Fin rho') (Fin hacc) (Fin Rc') (Fin B') s' (Fin g))
    = Ok (Fin FH', Fin FU', Fin MH', Fin MU', Fin p1', Fin p2', Fin p3', p4', hc', Fin pu', hb', Fin eta', L', a1', a2', a3', b')
    /\ (0 < p1 /\ higher more p1 p1') /\ (0 < p2 /\ higher more p2 p2') /\ (0 < p3 /\ higher more p3 p3') /\ (0 < pu /\ higher more pu pu')
    /\ (0 < eta /\ higher (HD < HD' \/ (Rabs beta' < Rabs beta /\ 15 < Rabs beta)) eta eta')
    /\ (0 < FH /\ higher (more \/ (Rc < Rc' /\ Rc < eta)) FH FH') /\ (0 < MH /\ higher (more \/ (Rc < Rc' /\ Rc < eta)) MH MH')
    /\ (0 < FU /\ higher (more \/ B < B') FU FU') /\ (0 < MU /\ higher (more \/ B < B') MU MU')
    /\ MU = 2 / 3 * FU * B /\ MU' = 2 / 3 * FU' * B'.
Proof.
  intros disper HD HD' Hsi Hsi' T T' beta beta' h d cot rho rho' hacc Rc Rc' B B' g B1 B1' s s' Hdis HHD HHs HT Hb Hh Hcot Hg Hrho Hd Ha HRc HB more.
  assert (Hw : 0 < 2 * PI / T' /\ 2 * PI / T' <= 2 * PI / T /\ (T < T' -> 2 * PI / T' < 2 * PI / T)).
  { pose proof PI_RGT_0. split; [apply Rdiv_lt_0_compat; lra|]. split; [apply Rmult_le_compat_l; [lra|]; apply Rinv_le_contravar; lra|].
    intros. apply Rmult_lt_compat_l; [lra|]. apply Rinv_lt_contravar; [|assumption]. apply Rmult_lt_0_compat; lra. }
  destruct (Hdis (2 * PI / T) h g) as (k & Hk & Ed & Dk); [lra..|]. destruct (Hdis (2 * PI / T') h g) as (k' & Hk' & Ed' & Dk'); [lra..|].
  pose proof (wave_number_lt _ _ h g k' k Hh Hg Hk' Hk ltac:(apply Hw) (proj1 (proj2 Hw)) Dk' Dk) as [Lk Sk].
  assert (ST : T < T' -> k' < k) by (intros S; apply Sk, Hw, S). clear Sk.
  destruct (loads_value disper HD Hsi T beta h d cot rho hacc Rc B g k B1 s) as (p2 & p4 & hc & hb & b & V & E2); [lra..|assumption|].
  destruct (loads_value disper HD' Hsi' T' beta' h d cot rho' hacc Rc' B' g k' B1' s') as (p2' & p4' & hc' & hb' & b' & V' & E2'); [lra..|assumption|].
  assert (Hhb : h + Hsi * 5 / cot <= h + Hsi' * 5 / cot).
  { apply Rplus_le_compat_l. unfold Rdiv. apply Rmult_le_compat_r; [left; apply Rinv_0_lt_compat; assumption|lra]. }
  pose proof (p1_higher beta beta' k k' h _ _ d rho rho' g HD HD' Hh (conj Hk' Lk) Hb Hd Hhb Hrho Hg HHD) as [P1 M1]. cbv zeta in P1, M1.
  eapply (higher_weaken _ more) in M1; [|unfold more; tauto].
  pose proof (alpha3_higher k k' h hacc Hh ltac:(lra) (conj Hk' Lk)) as A3. pose proof (alpha3_range k h hacc Hk Hh ltac:(lra)) as R3. pose proof (alpha3_range k' h hacc Hk' Hh ltac:(lra)) as R3'.
  pose proof (alpha1_range k h Hk Hh) as R1. pose proof (alpha1_higher k k' h Hh (conj Hk' Lk)) as A1.
  pose proof (goda_cos_pos beta ltac:(lra)) as Cp. pose proof (goda_cos_higher beta beta' Hb) as C.
  assert (ETA : 0 < goda_eta beta HD /\ higher (HD < HD' \/ (Rabs beta' < Rabs beta /\ 15 < Rabs beta)) (goda_eta beta HD) (goda_eta beta' HD')).
  { unfold goda_eta. split; [apply Rmult_lt_0_compat; lra|].
    eapply higher_weaken; [|apply (higher_mul (Rabs beta' < Rabs beta /\ 15 < Rabs beta) (HD < HD')); [lra|lra| |apply higher_self; lra]]; [tauto|].
    destruct C as [C1 C2]. split; [lra|]. intros S. specialize (C2 S). lra. }
  assert (PU : 0 < goda_pu beta (goda_alpha1 k h) (goda_alpha3 k h hacc) rho g HD
    /\ higher more (goda_pu beta (goda_alpha1 k h) (goda_alpha3 k h hacc) rho g HD) (goda_pu beta' (goda_alpha1 k' h) (goda_alpha3 k' h hacc) rho' g HD')).
  { unfold goda_pu. set (c := goda_cos beta) in *. set (c' := goda_cos beta') in *.
    assert (X1 : higher (Rabs beta' < Rabs beta /\ 15 < Rabs beta) (0.5 * (1 + c)) (0.5 * (1 + c'))) by (destruct C as [C1 C2]; split; [lra|]; intros S; specialize (C2 S); lra).
    assert (G1 : 0 < 0.5 * (1 + c)) by lra. assert (G0 : 0 < goda_alpha1 k h) by lra.
    pose proof (higher_mul _ _ _ _ _ _ G1 G0 X1 A1) as X2. assert (G2 : 0 < 0.5 * (1 + c) * goda_alpha1 k h) by (apply Rmult_lt_0_compat; lra).
    pose proof (higher_mul _ _ _ _ _ _ G2 (proj1 R3) X2 (higher_le _ _ A3)) as X3. assert (G3 : 0 < 0.5 * (1 + c) * goda_alpha1 k h * goda_alpha3 k h hacc) by (apply Rmult_lt_0_compat; lra).
    pose proof (higher_mul _ _ _ _ _ _ G3 (proj1 Hrho) X3 (higher_self _ _ (proj2 Hrho))) as X4. assert (G4 : 0 < 0.5 * (1 + c) * goda_alpha1 k h * goda_alpha3 k h hacc * rho) by (apply Rmult_lt_0_compat; lra).
    pose proof (higher_mul _ _ _ _ _ _ G4 Hg X4 (higher_refl g)) as X5. assert (G5 : 0 < 0.5 * (1 + c) * goda_alpha1 k h * goda_alpha3 k h hacc * rho * g) by (apply Rmult_lt_0_compat; lra).
    pose proof (higher_mul _ _ _ _ _ _ G5 (proj1 HHD) X5 (higher_self _ _ (proj2 HHD))) as X6.
    split; [apply Rmult_lt_0_compat; lra|]. eapply higher_weaken; [|exact X6]. unfold more. tauto. }
  set (a1 := goda_alpha1 k h) in *. set (a1' := goda_alpha1 k' h) in *. set (a3 := goda_alpha3 k h hacc) in *. set (a3' := goda_alpha3 k' h hacc) in *.
  set (a2 := goda_alpha2 (h + Hsi * 5 / cot) d HD) in *. set (a2' := goda_alpha2 (h + Hsi' * 5 / cot) d HD') in *.
  set (p1 := goda_p1 beta a1 a2 rho g HD) in *. set (p1' := goda_p1 beta' a1' a2' rho' g HD') in *.
  set (pu := goda_pu beta a1 a3 rho g HD) in *. set (pu' := goda_pu beta' a1' a3' rho' g HD') in *.
  set (eta := goda_eta beta HD) in *. set (eta' := goda_eta beta' HD') in *.
  destruct ETA as [Eta0 Eta]. destruct PU as [Pu0 Pu].
  pose proof (cut_force_eta eta eta' Rc (conj Eta0 (proj1 Eta)) ltac:(lra)) as CF1.
  assert (CF : higher (Rc < Rc' /\ Rc < eta) (cut_force eta Rc) (cut_force eta' Rc')).
  { pose proof (cut_force_r eta Rc Rc' Eta0 HRc) as [F1 F2]. pose proof (cut_force_eta eta eta' Rc' (conj Eta0 (proj1 Eta)) ltac:(lra)) as CF2.
    split; [lra|]. intros S. specialize (F2 S). lra. }
  assert (CM : 0 <= cut_moment eta Rc /\ cut_moment eta Rc <= cut_moment eta' Rc').
  { pose proof (cut_moment_r eta Rc Rc' Eta0 HRc) as F1. pose proof (cut_moment_eta eta eta' Rc' (conj Eta0 (proj1 Eta)) ltac:(lra)). pose proof (cut_moment_eta eta eta' Rc (conj Eta0 (proj1 Eta)) ltac:(lra)). lra. }
  set (cf := cut_force eta Rc) in *. set (cf' := cut_force eta' Rc') in *. set (cm := cut_moment eta Rc) in *. set (cm' := cut_moment eta' Rc') in *.
  do 17 eexists. do 17 eexists. split; [exact V|]. split; [exact V'|].
  assert (K : higher False (1 / cosh (k * h)) (1 / cosh (k' * h)) /\ 0 < 1 / cosh (k * h)).
  { pose proof (cosh_pos (k * h)). pose proof (cosh_pos (k' * h)). split; [|apply Rdiv_lt_0_compat; lra]. apply higher_le. apply Rmult_le_compat_l; [lra|]. apply Rinv_le_contravar; [assumption|].
    destruct Lk as [Lk| ->]; [|right; reflexivity]. left. apply cosh_lt. split; [apply Rmult_le_pos; lra|apply Rmult_lt_compat_r; lra]. }
  assert (FU1 : higher (more \/ B < B') (0.5 * pu * B) (0.5 * pu' * B') /\ 0 < 0.5 * pu * B).
  { split; [|apply Rmult_lt_0_compat; lra]. apply higher_mul; [lra|lra| |apply higher_self; lra]. destruct Pu as [U1 U2]. split; [lra|]. intros S. specialize (U2 S). lra. }
  split; [split; assumption|]. split.
  { rewrite E2, E2'. split; [apply Rmult_lt_0_compat; tauto|]. eapply higher_weaken; [|apply higher_mul; [assumption|apply K|exact M1|apply K]]. tauto. }
  split. { split; [apply Rmult_lt_0_compat; tauto|]. eapply higher_weaken; [|apply higher_mul; [apply R3|assumption|apply higher_le; exact A3|exact M1]]. tauto. }
  split; [split; assumption|]. split; [split; assumption|].
  assert (HA : 0 < hacc ^ 2) by (apply pow_lt; lra).
  assert (S1 : 0 < 0.5 * (1 + a3) * hacc) by (apply Rmult_lt_0_compat; lra).
  assert (S2 : 0.5 * (1 + a3) * hacc <= 0.5 * (1 + a3') * hacc) by (apply Rmult_le_compat_r; lra).
  assert (S3 : 0 < 1 / 6 * (2 + a3) * hacc ^ 2) by (apply Rmult_lt_0_compat; lra).
  assert (S4 : 1 / 6 * (2 + a3) * hacc ^ 2 <= 1 / 6 * (2 + a3') * hacc ^ 2) by (apply Rmult_le_compat_r; lra).
  assert (S5 : higher (Rc < Rc' /\ Rc < eta) (0.5 * hacc * cf) (0.5 * hacc * cf')).
  { destruct CF as [F1 F2]. split; [apply Rmult_le_compat_l; lra|]. intros S. specialize (F2 S). apply Rmult_lt_compat_l; lra. }
  assert (S6 : 0 <= 0.5 * hacc * cf) by (apply Rmult_le_pos; lra).
  split. { split; [apply Rmult_lt_0_compat; lra|]. apply higher_mul; [assumption|lra|exact M1|]. destruct CF as [F1 F2]. split; [lra|]. intros S. specialize (F2 S). lra. }
  split. { split; [apply Rmult_lt_0_compat; lra|]. apply higher_mul; [assumption|lra|exact M1|]. destruct S5 as [F1 F2]. split; [lra|]. intros S. specialize (F2 S). lra. }
  split; [tauto|]. split; [|split; reflexivity]. split; [apply Rmult_lt_0_compat; lra|].
  eapply higher_weaken; [|apply (higher_mul (more \/ B < B') (B < B')); [lra|lra| |apply higher_self; lra]]; [tauto|].
  destruct FU1 as [[U1 U2] _]. split; [lra|]. intros S. specialize (U2 S). lra.
Qed.

(** All loads respond to the waves, the density, the height and the width of the caisson. *)
Theorem C79_goda : forall disper HD HD' Hsi Hsi' T T' beta beta' h d cot rho rho' hacc Rc Rc' B B' g (B1 B1' s s' : num),
  solves_dispersion disper ->
  0 < HD <= HD' -> 0 <= Hsi <= Hsi' -> 0 < T <= T' -> Rabs beta' <= Rabs beta <= 90 -> 0 < h -> 0 < cot -> 0 < g -> 0 < rho <= rho' ->
  0 < d <= h + Hsi * 5 / cot -> 0 < hacc <= h -> 0 <= Rc <= Rc' -> 0 < B <= B' ->
  let more := HD < HD' \/ T < T' \/ rho < rho' \/ (Rabs beta' < Rabs beta /\ 15 < Rabs beta) in
  exists FH FU MH MU p1 p2 p3 p4 hc pu hb eta L a1 a2 a3 b FH' FU' MH' MU' p1' p2' p3' p4' hc' pu' hb' eta' L' a1' a2' a3' b',
    value (pressures_of disper (Fin HD) (Fin Hsi) (Fin T) (Fin beta) (Fin h) (Fin d) B1 (Fin cot) (Fin rho) (Fin hacc) (Fin Rc) (Fin B) s (Fin g))
    = Ok (Fin FH, Fin FU, Fin MH, Fin MU, Fin p1, Fin p2, Fin p3, p4, hc, Fin pu, hb, Fin eta, L, a1, a2, a3, b)
    /\ value (pressures_of disper (Fin HD') (Fin Hsi') (Fin T') (Fin beta') (Fin h) (Fin d) B1' (Fin cot) (Fin rho') (Fin hacc) (Fin Rc') (Fin B') s' (Fin g))
    = Ok (Fin FH', Fin FU', Fin MH', Fin MU', Fin p1', Fin p2', Fin p3', p4', hc', Fin pu', hb', Fin eta', L', a1', a2', a3', b')
    /\ (0 < p1 /\ higher more p1 p1') /\ (0 < p2 /\ higher more p2 p2') /\ (0 < p3 /\ higher more p3 p3') /\ (0 < pu /\ higher more pu pu')
    /\ (0 < eta /\ higher (HD < HD' \/ (Rabs beta' < Rabs beta /\ 15 < Rabs beta)) eta eta')
    /\ (0 < FH /\ higher (more \/ (Rc < Rc' /\ Rc < eta)) FH FH') /\ (0 < MH /\ higher (more \/ (Rc < Rc' /\ Rc < eta)) MH MH')
    /\ (0 < FU /\ higher (more \/ B < B') FU FU') /\ (0 < MU /\ higher (more \/ B < B') MU MU').
Proof.
  intros disper HD HD' Hsi Hsi' T T' beta beta' h d cot rho rho' hacc Rc Rc' B B' g B1 B1' s s' Hdis HHD HHs HT Hb Hh Hcot Hg Hrho Hd Ha HRc HB more.
  destruct (loads_grow disper HD HD' Hsi Hsi' T T' beta beta' h d cot rho rho' hacc Rc Rc' B B' g B1 B1' s s' Hdis HHD HHs HT Hb Hh Hcot Hg Hrho Hd Ha HRc HB)
    as (FH & FU & MH & MU & p1 & p2 & p3 & p4 & hc & pu & hb & eta & L & a1 & a2 & a3 & b & FH' & FU' & MH' & MU' & p1' & p2' & p3' & p4' & hc' & pu' & hb' & eta' & L' & a1' & a2' & a3' & b' & V & V' & G1 & G2 & G3 & G4 & G5 & G6 & G7 & G8 & G9 & _).
  exists FH, FU, MH, MU, p1, p2, p3, p4, hc, pu, hb, eta, L, a1, a2, a3, b, FH', FU', MH', MU', p1', p2', p3', p4', hc', pu', hb', eta', L', a1', a2', a3', b'. exact (conj V (conj V' (conj G1 (conj G2 (conj G3 (conj G4 (conj G5 (conj G6 (conj G7 (conj G8 G9)))))))))).
Qed.

Lemma bearing_value W t MH MU FU B : 0 < W - FU -> 0 < W * t - MU - MH -> 0 < B ->
  exists Me We te, calculate_bearing_pressures (Fin W) (Fin t) (Fin MH) (Fin MU) (Fin FU) (Fin B) = (Fin (heel (W - FU) (W * t - MU - MH) B), Me, We, te).
Proof.
  intros HW HM HB. unfold calculate_bearing_pressures. cbv zeta. rewrite !nmul_fin, !nsub_fin. rewrite (ndiv_fin (W * t - MU - MH)) by lra. rewrite (ndiv_fin 1 3) by lra. rewrite nmul_fin, nle_fin.
  assert (0 < (W * t - MU - MH) / (W - FU)) by (apply Rdiv_lt_0_compat; lra). unfold heel.
  do 3 eexists. rewrite !nmul_fin. destruct (Rleb_spec ((W * t - MU - MH) / (W - FU)) (1 / 3 * B)) as [I|I], (Rle_dec ((W * t - MU - MH) / (W - FU)) (1 / 3 * B)) as [J|J]; try contradiction; try lra.
  - rewrite ndiv_fin by lra. reflexivity.
  - rewrite !ndiv_fin by lra. rewrite nmul_fin, nsub_fin, nmul_fin. reflexivity.
Qed.

(** The same caisson in larger, longer or less oblique waves is less safe, and, as long as it stands, presses
    harder on the ground under its heel. *)
Theorem C79_goda_safety : forall disper HD HD' Hsi Hsi' T T' beta beta' h d cot rho hacc Rc B above below mu frac g (B1 B1' s s' : num),
  solves_dispersion disper ->
  0 < HD <= HD' -> 0 <= Hsi <= Hsi' -> 0 < T <= T' -> Rabs beta' <= Rabs beta <= 90 -> 0 < h -> 0 < cot -> 0 < g -> 0 < rho ->
  0 < d <= h + Hsi * 5 / cot -> 0 < hacc <= h -> 0 <= Rc -> 0 < B -> 0 < mu ->
  let more := HD < HD' \/ T < T' \/ (Rabs beta' < Rabs beta /\ 15 < Rabs beta) in
  exists FH FU MH MU p1 pe pu b sliding overturning FH' FU' MH' MU' p1' pe' pu' b' sliding' overturning',
    value (reactions_of disper (Fin HD) (Fin Hsi) (Fin T) (Fin beta) (Fin h) (Fin d) B1 (Fin cot) (Fin rho) (Fin hacc) (Fin Rc) (Fin B) (Fin above) (Fin below) s (Fin mu) (Fin frac) (Fin g))
    = Ok (FH, FU, MH, MU, p1, pe, pu, b, Fin sliding, Fin overturning)
    /\ value (reactions_of disper (Fin HD') (Fin Hsi') (Fin T') (Fin beta') (Fin h) (Fin d) B1' (Fin cot) (Fin rho) (Fin hacc) (Fin Rc) (Fin B) (Fin above) (Fin below) s' (Fin mu) (Fin frac) (Fin g))
    = Ok (FH', FU', MH', MU', p1', pe', pu', b', Fin sliding', Fin overturning')
    /\ (0 <= sliding' -> higher more sliding' sliding) /\ (0 <= overturning' -> higher more overturning' overturning)
    /\ (0 < sliding' -> 1 < overturning' -> exists x x', pe = Fin x /\ pe' = Fin x' /\ higher more x x').
Proof.
  intros disper HD HD' Hsi Hsi' T T' beta beta' h d cot rho hacc Rc B above below mu frac g B1 B1' s s' Hdis HHD HHs HT Hb Hh Hcot Hg Hrho Hd Ha HRc HB Hmu more.
  destruct (loads_grow disper HD HD' Hsi Hsi' T T' beta beta' h d cot rho rho hacc Rc Rc B B g B1 B1' s s' Hdis HHD HHs HT Hb Hh Hcot Hg ltac:(lra) Hd Ha ltac:(lra) ltac:(lra))
    as (FH & FU & MH & MU & p1 & p2 & p3 & p4 & hc & pu & hb & eta & L & a1 & a2 & a3 & b & FH' & FU' & MH' & MU' & p1' & p2' & p3' & p4' & hc' & pu' & hb' & eta' & L' & a1' & a2' & a3' & b' & V & V' & _ & _ & _ & _ & _ & [FH0 FHh] & [MH0 MHh] & [FU0 FUh] & [MU0 MUh] & EM & EM').
  eapply (higher_weaken _ more) in FHh; [|unfold more; tauto]. eapply (higher_weaken _ more) in MHh; [|unfold more; tauto].
  eapply (higher_weaken _ more) in FUh; [|unfold more; tauto]. eapply (higher_weaken _ more) in MUh; [|unfold more; tauto].
  pose proof (C35_reactions disper (Fin HD) (Fin Hsi) (Fin T) (Fin beta) (Fin h) (Fin d) B1 (Fin cot) (Fin rho) (Fin hacc) (Fin Rc) (Fin B) (Fin above) (Fin below) s (Fin mu) (Fin frac) (Fin g)) as R.
  rewrite V in R. destruct R as (pe & Me & We & te & sl & ov & W & EW & EB & ES & ER).
  pose proof (C35_reactions disper (Fin HD') (Fin Hsi') (Fin T') (Fin beta') (Fin h) (Fin d) B1' (Fin cot) (Fin rho) (Fin hacc) (Fin Rc) (Fin B) (Fin above) (Fin below) s' (Fin mu) (Fin frac) (Fin g)) as R.
  rewrite V' in R. destruct R as (pe' & Me' & We' & te' & sl' & ov' & W' & EW' & EB' & ES' & ER').
  rewrite C35_weight in EW, EW'. subst W W'. set (W := caisson_weight hacc Rc B below above rho g) in *. rewrite nmul_fin in *.
  destruct (C35_safety FU FH W mu (frac * B) MH MU FH0 MH0) as (sl1 & ov1 & E1 & I1 & J1 & _). rewrite ES in E1. injection E1 as -> ->.
  assert (FH0' : 0 < FH') by (destruct FHh; lra). assert (MH0' : 0 < MH') by (destruct MHh; lra).
  destruct (C35_safety FU' FH' W mu (frac * B) MH' MU' FH0' MH0') as (sl2 & ov2 & E2 & I2 & J2 & _). rewrite ES' in E2. injection E2 as -> ->.
  do 10 eexists. do 10 eexists. split; [exact ER|]. split; [exact ER'|]. split; [|split].
  - intros P. assert (Q : 0 <= mu * (W - FU')) by (rewrite <- I2; apply Rmult_le_pos; lra).
    destruct FHh as [F1 F2], FUh as [U1 U2]. assert (mu * (W - FU') <= mu * (W - FU)) by (apply Rmult_le_compat_l; lra).
    assert (X : sl2 * FH <= sl2 * FH') by (apply Rmult_le_compat_l; lra). split; [apply (Rmult_le_reg_r FH); lra|].
    intros S. specialize (U2 S). assert (mu * (W - FU') < mu * (W - FU)) by (apply Rmult_lt_compat_l; lra). apply (Rmult_lt_reg_r FH); lra.
  - intros P. assert (Q : 0 <= ov2 * MH') by (apply Rmult_le_pos; lra).
    destruct MHh as [F1 F2], MUh as [U1 U2].
    assert (X : ov2 * MH <= ov2 * MH') by (apply Rmult_le_compat_l; lra). split; [apply (Rmult_le_reg_r MH); lra|].
    intros S. specialize (U2 S). apply (Rmult_lt_reg_r MH); lra.
  - intros P P1. assert (Q : 0 < W - FU'). { assert (0 < mu * (W - FU')) by (rewrite <- I2; apply Rmult_lt_0_compat; lra). apply (Rmult_lt_reg_l mu); lra. }
    assert (Q1 : 0 < W * (frac * B) - MU' - MH'). { assert (1 * MH' < ov2 * MH') by (apply Rmult_lt_compat_r; lra). lra. }
    destruct FUh as [U1 U2], MHh as [N1 N2], MUh as [K1 K2].
    destruct (bearing_value W (frac * B) MH MU FU B) as (x1 & x2 & x3 & EV); [lra..|]. rewrite EB in EV. injection EV as -> _ _ _.
    destruct (bearing_value W (frac * B) MH' MU' FU' B) as (y1 & y2 & y3 & EV); [lra..|]. rewrite EB' in EV. injection EV as -> _ _ _.
    do 2 eexists. split; [reflexivity|]. split; [reflexivity|].
    pose proof (heel_higher (W - FU) (W * (frac * B) - MU - MH) B (FU' - FU) (MH' - MH) HB ltac:(lra) ltac:(lra) ltac:(lra)) as G.
    replace (W - FU - (FU' - FU)) with (W - FU') in G by ring. replace (W * (frac * B) - MU - MH - 2 / 3 * B * (FU' - FU) - (MH' - MH)) with (W * (frac * B) - MU' - MH') in G by (rewrite EM, EM'; ring).
    specialize (G Q1). eapply higher_weaken; [|exact G]. intros S. specialize (N2 S). lra.
Qed.

(** A caisson in a storm that grows from a design wave of 3 m to one of 4 m. *)
Example C79_goda_example : exists FH FU MH MU p1 p2 p3 p4 hc pu hb eta L a1 a2 a3 b FH' FU' MH' MU' p1' p2' p3' p4' hc' pu' hb' eta' L' a1' a2' a3' b',
  value (pressures_of exact_disper #3 #1.8 #8 #20 #10 #8 #5 #50 #1025 #7 #4 #12 NaN (Fin g0))
    = Ok (Fin FH, Fin FU, Fin MH, Fin MU, Fin p1, Fin p2, Fin p3, p4, hc, Fin pu, hb, Fin eta, L, a1, a2, a3, b)
  /\ value (pressures_of exact_disper #4 #2.4 #9 #20 #10 #8 #5 #50 #1025 #7 #4 #12 NaN (Fin g0))
    = Ok (Fin FH', Fin FU', Fin MH', Fin MU', Fin p1', Fin p2', Fin p3', p4', hc', Fin pu', hb', Fin eta', L', a1', a2', a3', b')
  /\ 0 < FH < FH' /\ 0 < FU < FU' /\ 0 < MH < MH' /\ 0 < MU < MU'.
Proof.
  destruct (C79_goda exact_disper 3 4 1.8 2.4 8 9 20 20 10 8 50 1025 1025 7 4 4 12 12 g0 #5 #5 NaN NaN exact_disper_solves)
    as (FH & FU & MH & MU & p1 & p2 & p3 & p4 & hc & pu & hb & eta & L & a1 & a2 & a3 & b & FH' & FU' & MH' & MU' & p1' & p2' & p3' & p4' & hc' & pu' & hb' & eta' & L' & a1' & a2' & a3' & b' & V & V' & _ & _ & _ & _ & _ & [G1 [_ G2]] & [G3 [_ G4]] & [G5 [_ G6]] & [G7 [_ G8]]);
    try (rewrite ?(Rabs_right 20) by lra; pose proof g0_pos; lra).
  do 34 eexists. split; [exact V|]. split; [exact V'|].
  assert (S : 3 < 4) by lra. split; [|split; [|split]]; (split; [assumption|]); [apply G2|apply G6|apply G4|apply G8]; left; left; exact S.
Qed.
