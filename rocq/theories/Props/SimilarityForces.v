(** C76: wave forces on crest walls and caissons, and toes of caissons, on another scale *)
From Coq Require Import Reals Lra Lia Bool ZArith String List.
From Verif.Lib Require Import Num Monad RTac NTac.
From Verif.Spec Require Import Similarity.
From Verif.Model Require Import CoreUtility CorePhysics.
From Verif.Model Require CrestWall2019 Goda1985 Takahashi1990.
From Verif.Proofs Require Import Dispersion Similarity SimilarityLoops.
Open Scope R_scope.

(** Crest walls *)
Theorem C76_crest_wall2019 l d : 0 < l -> 0 < d -> 
  (forall z2p Ac beta gamma_A, CrestWall2019.calculate_influence_oblique_waves_force_gamma_F_beta (distance l z2p) (distance l Ac) beta gamma_A = CrestWall2019.calculate_influence_oblique_waves_force_gamma_F_beta z2p Ac beta gamma_A) /\
  (forall Hm0 z2p Ac Rc Hwall rho_water g cFH, similar (force l d)
     (CrestWall2019.calculate_FH2p_perpendicular_from_z2p (distance l Hm0) (distance l z2p) (distance l Ac) (distance l Rc) (distance l Hwall) (density d rho_water) g cFH)
     (CrestWall2019.calculate_FH2p_perpendicular_from_z2p Hm0 z2p Ac Rc Hwall rho_water g cFH)) /\
  (forall Hm0 Tmm10 cot_alpha Ac Rc Hwall gamma_beta gamma_f c0 c1 rho_water g cFH, similar (force l d)
     (CrestWall2019.calculate_FH2p_perpendicular (distance l Hm0) (time l Tmm10) cot_alpha (distance l Ac) (distance l Rc) (distance l Hwall) gamma_beta gamma_f c0 c1 (density d rho_water) g cFH)
     (CrestWall2019.calculate_FH2p_perpendicular Hm0 Tmm10 cot_alpha Ac Rc Hwall gamma_beta gamma_f c0 c1 rho_water g cFH)) /\
  (forall Hm0 Tmm10 beta cot_alpha Ac Rc Hwall gamma_beta gamma_f c0 c1 cFH rho_water g, similar (force l d)
     (CrestWall2019.calculate_FH2p_oblique (distance l Hm0) (time l Tmm10) beta cot_alpha (distance l Ac) (distance l Rc) (distance l Hwall) gamma_beta gamma_f c0 c1 cFH (density d rho_water) g)
     (CrestWall2019.calculate_FH2p_oblique Hm0 Tmm10 beta cot_alpha Ac Rc Hwall gamma_beta gamma_f c0 c1 cFH rho_water g)) /\
  (forall z2p Ac Bwall Fb cFV cFb rho_water g, CrestWall2019.calculate_FV2p_perpendicular_from_z2p (distance l z2p) (distance l Ac) (distance l Bwall) (distance l Fb) cFV cFb (density d rho_water) g = force l d (CrestWall2019.calculate_FV2p_perpendicular_from_z2p z2p Ac Bwall Fb cFV cFb rho_water g)) /\
  (forall Hm0 Tmm10 cot_alpha Ac Bwall Fb gamma_beta gamma_f c0 c1 cFV cFb rho_water g, similar (force l d)
     (CrestWall2019.calculate_FV2p_perpendicular (distance l Hm0) (time l Tmm10) cot_alpha (distance l Ac) (distance l Bwall) (distance l Fb) gamma_beta gamma_f c0 c1 cFV cFb (density d rho_water) g)
     (CrestWall2019.calculate_FV2p_perpendicular Hm0 Tmm10 cot_alpha Ac Bwall Fb gamma_beta gamma_f c0 c1 cFV cFb rho_water g)) /\
  (forall Hm0 Tmm10 beta cot_alpha Ac Bwall Fb gamma_beta gamma_f c0 c1 cFV cFb rho_water g, similar (force l d)
     (CrestWall2019.calculate_FV2p_oblique (distance l Hm0) (time l Tmm10) beta cot_alpha (distance l Ac) (distance l Bwall) (distance l Fb) gamma_beta gamma_f c0 c1 cFV cFb (density d rho_water) g)
     (CrestWall2019.calculate_FV2p_oblique Hm0 Tmm10 beta cot_alpha Ac Bwall Fb gamma_beta gamma_f c0 c1 cFV cFb rho_water g)) /\
  (forall FH2p, CrestWall2019.calculate_FH01p_perpendicular (force l d FH2p) = force l d (CrestWall2019.calculate_FH01p_perpendicular FH2p)) /\
  (forall FV2p s0p, CrestWall2019.calculate_FV01p_perpendicular (force l d FV2p) s0p = force l d (CrestWall2019.calculate_FV01p_perpendicular FV2p s0p)).
Proof.
  intros L D.
  split; [intros; start l d; pure|].
  split; [intros; apply sim_similar; start l d; sims|].
  split; [intros; apply sim_similar; start l d; sims|].
  split; [intros; apply sim_similar; start l d; sims|].
  split; [intros; start l d; pure|].
  split; [intros; apply sim_similar; start l d; sims|].
  split; [intros; apply sim_similar; start l d; sims|].
  split; [intros; start l d; pure|].
  intros; start l d; pure.
Qed.

(** Caissons: with a routine that solves the dispersion relation. *)
Ltac known ::= lazymatch goal with |- like _ _ _ _ _ (local_wavelength _ _ _ _) => eapply wavelength_similar; eassumption end.

(** FH, FU, MH, MU, p1, p2, p3, p4, hstar_c, pu, h_5Hs, etastar, L, alpha_1, alpha_2, alpha_3 and whether breaking is impulsive *)
Definition pressures l d : Goda1985.pressures -> Goda1985.pressures := force l d & force l d & moment l d & moment l d & pressure l d & pressure l d & pressure l d & pressure l d & distance l & pressure l d
  & distance l & distance l & distance l & same & same & same & same.
(** FH, FU, MH, MU, p1, pe, pu, whether breaking is impulsive and the two safety factors *)
Definition reactions l d : Goda1985.reactions -> Goda1985.reactions := force l d & force l d & moment l d & moment l d & pressure l d & pressure l d & pressure l d & same & same & same.

Lemma pressures_sim disper w l d HD Hsi T beta h db B1 cota rho hacc Rc Bup s0 g : solves_dispersion disper -> scales l d -> 0 < T -> 0 < h -> 0 < g ->
  sim w (pressures l d)
    (Goda1985.calculate_pressures_and_forces_tuple disper (distance l HD) (distance l Hsi) (time l (Fin T)) beta (distance l (Fin h)) (distance l db) (distance l B1) cota (density d rho) (distance l hacc) (distance l Rc) (distance l Bup) s0 (Fin g))
    (Goda1985.calculate_pressures_and_forces_tuple disper HD Hsi (Fin T) beta (Fin h) db B1 cota rho hacc Rc Bup s0 (Fin g)).
Proof.
  intros Q S HT Hh Hg. assert (L : 0 < l) by apply S. assert (D : 0 < d) by apply S. unfold pressures. start l d.
  unfold Goda1985.calculate_pressures_and_forces_tuple, Goda1985.calculate_pressures_and_forces. cbv beta zeta.
  eapply sim_fst; [sims|]. intros y. eapply sim_fst; [sims|]. intros i. unfold same at 1. rewrite !bind_ret_l. cbn [fst]. apply sim_ret. result.
Qed.
Theorem C76_goda1985_pressures disper l d : solves_dispersion disper -> 0 < l -> 0 < d -> forall HD Hsi Tmax beta h_s d_ B1 cota_seabed rho_water hacc Rc Bup offshore_wave_steepness g, 0 < Tmax -> 0 < h_s -> 0 < g ->
  similar (pressures l d)
    (Goda1985.calculate_pressures_and_forces_tuple disper (distance l HD) (distance l Hsi) (time l (Fin Tmax)) beta (distance l (Fin h_s)) (distance l d_) (distance l B1) cota_seabed (density d rho_water)
       (distance l hacc) (distance l Rc) (distance l Bup) offshore_wave_steepness (Fin g))
    (Goda1985.calculate_pressures_and_forces_tuple disper HD Hsi (Fin Tmax) beta (Fin h_s) d_ B1 cota_seabed rho_water hacc Rc Bup offshore_wave_steepness (Fin g)).
Proof. intros Q L D; intros. apply sim_similar, pressures_sim; try assumption. split; assumption. Qed.

(** The reactions warn about the wave period itself. *)
Theorem C76_goda1985_reactions disper l d : solves_dispersion disper -> 0 < l -> 0 < d -> forall HD Hsi Tmax beta h_s d_ B1 cota_seabed rho_water hacc Rc Bup rho_fill_above_SWL rho_fill_below_SWL offshore_wave_steepness muf tup_over_Bup g,
  0 < Tmax -> 0 < h_s -> 0 < g ->
  similar_value (reactions l d)
    (Goda1985.calculate_forces_and_reactions_tuple disper (distance l HD) (distance l Hsi) (time l (Fin Tmax)) beta (distance l (Fin h_s)) (distance l d_) (distance l B1) cota_seabed (density d rho_water)
       (distance l hacc) (distance l Rc) (distance l Bup) (density d rho_fill_above_SWL) (density d rho_fill_below_SWL) offshore_wave_steepness muf tup_over_Bup (Fin g))
    (Goda1985.calculate_forces_and_reactions_tuple disper HD Hsi (Fin Tmax) beta (Fin h_s) d_ B1 cota_seabed rho_water hacc Rc Bup rho_fill_above_SWL rho_fill_below_SWL offshore_wave_steepness muf tup_over_Bup (Fin g)).
Proof.
  intros Q L D; intros. apply sim_value. assert (S : scales l d) by (split; assumption).
  unfold Goda1985.calculate_forces_and_reactions_tuple, Goda1985.calculate_forces_and_reactions.
  eapply sim_fst; [apply pressures_sim; assumption|].
  intros [[[[[[[[[[[[[[[[FH FU] MH] MU] p1] p2] p3] p4] hs] pu] h5] es] Lw] a1] a2] a3] ib]. unfold pressures, both, same. cbn [fst snd].
  unfold Goda1985.calculate_bearing_pressures, Goda1985.calculate_safety_factors. cbv beta iota zeta.
  unfold reactions. start l d. eapply sim_fst; [sims|]. intros []. rewrite !bind_ret_l. cbn [fst]. apply sim_ret. result.
Qed.

(** The pieces *)
Theorem C76_goda1985_parts l d : 0 < l -> 0 < d ->
  (forall hacc Rc Bup rho_fill_below_SWL rho_water rho_fill_above_SWL g,
     Goda1985.calculate_Wup (distance l hacc) (distance l Rc) (distance l Bup) (density d rho_fill_below_SWL) (density d rho_water) (density d rho_fill_above_SWL) g
     = force l d (Goda1985.calculate_Wup hacc Rc Bup rho_fill_below_SWL rho_water rho_fill_above_SWL g)) /\
  (forall FU FH Wup muf tup MH MU,
     Goda1985.calculate_safety_factors (force l d FU) (force l d FH) (force l d Wup) muf (distance l tup) (moment l d MH) (moment l d MU)
     = Goda1985.calculate_safety_factors FU FH Wup muf tup MH MU) /\
  (forall Wup tup MH MU FU Bup,
     Goda1985.calculate_bearing_pressures (force l d Wup) (distance l tup) (moment l d MH) (moment l d MU) (force l d FU) (distance l Bup)
     = (pressure l d & moment l d & force l d & distance l) (Goda1985.calculate_bearing_pressures Wup tup MH MU FU Bup)).
Proof.
  intros L D. split; [intros; start l d; pure|]. split; intros.
  - start l d. unfold Goda1985.calculate_safety_factors. apply f_equal2; plain.
  - unfold Goda1985.calculate_bearing_pressures, both. cbn [fst snd]. cbv zeta. start l d. result.
Qed.

(** Toes of caissons warn about the width of the toe itself. *)
Lemma takahashi_sim disper w l d Hs T h Bt beta g : solves_dispersion disper -> scales l d -> 0 < T -> 0 < h -> 0 < g -> (w = true -> False) ->
  sim w same (Takahashi1990.calculate_stability_number_Ns disper (sc l d 1 0 Hs) (sc l d (1 / 2) 0 (Fin T)) (sc l d 1 0 (Fin h)) (sc l d 1 0 Bt) beta (Fin g))
    (Takahashi1990.calculate_stability_number_Ns disper Hs (Fin T) (Fin h) Bt beta (Fin g)).
Proof. intros Q S HT Hh Hg W. destruct w; [destruct (W eq_refl)|]. sims. Qed.
Theorem C76_takahashi1990 disper l d : solves_dispersion disper -> 0 < l -> 0 < d ->
  (forall Hs Tp hacc Bt beta g, 0 < Tp -> 0 < hacc -> 0 < g -> similar_value same
     (Takahashi1990.calculate_stability_number_Ns disper (distance l Hs) (time l (Fin Tp)) (distance l (Fin hacc)) (distance l Bt) beta (Fin g))
     (Takahashi1990.calculate_stability_number_Ns disper Hs (Fin Tp) (Fin hacc) Bt beta (Fin g))) /\
  (forall Hs Tp hacc Bt rho_rock rho_water beta g, 0 < Tp -> 0 < hacc -> 0 < g -> similar_value (distance l)
     (Takahashi1990.calculate_nominal_diameter_Dn50 disper (distance l Hs) (time l (Fin Tp)) (distance l (Fin hacc)) (distance l Bt) (density d rho_rock) (density d rho_water) beta (Fin g))
     (Takahashi1990.calculate_nominal_diameter_Dn50 disper Hs (Fin Tp) (Fin hacc) Bt rho_rock rho_water beta (Fin g))).
Proof.
  intros Q L D. split; intros; apply sim_value; start l d; [apply takahashi_sim; try assumption; discriminate|].
  unfold Takahashi1990.calculate_nominal_diameter_Dn50. cbv zeta. eapply sim_bind; [apply takahashi_sim; try assumption; discriminate|]. intros y. unfold same.
  cbn [check_usage_stabilitynumber is_none b2n Nat.add Nat.ltb Nat.leb Nat.eqb]. rewrite !bind_ret_l. cbn [fst]. apply sim_ret. result.
Qed.

(** The weight of a caisson in water, and the same on a scale of 1 to 50 with materials half as heavy; the equation of dispersion has a solution. *)
Example C76_goda1985_example :
  Goda1985.calculate_Wup #10 #5 #20 #2000 #1000 #2000 #10 = #4000000 /\
  Goda1985.calculate_Wup #0.2 #0.1 #0.4 #1000 #500 #1000 #10 = #800 /\
  exists disper, solves_dispersion disper.
Proof.
  assert (A : Goda1985.calculate_Wup #10 #5 #20 #2000 #1000 #2000 #10 = #4000000) by (unfold Goda1985.calculate_Wup; nfin; f_equal; lra).
  split; [exact A|]. split; [|exists exact_disper; exact exact_disper_solves].
  pose proof (proj1 (C76_goda1985_parts 0.02 0.5 ltac:(lra) ltac:(lra)) #10 #5 #20 #2000 #1000 #2000 #10) as S. rewrite A in S. cbn [distance density force scaled] in S.
  replace (Fin (0.02 * 10)) with #0.2 in S by (f_equal; lra). replace (Fin (0.02 * 5)) with #0.1 in S by (f_equal; lra). replace (Fin (0.02 * 20)) with #0.4 in S by (f_equal; lra).
  replace (Fin (0.5 * 2000)) with #1000 in S by (f_equal; lra). replace (Fin (0.5 * 1000)) with #500 in S by (f_equal; lra).
  rewrite S. f_equal. lra.
Qed.
