(** A missing number does not turn into a number: searches and caissons. *)
From Coq Require Import Reals Lra List Bool String ZArith.
From Verif.Lib Require Import Num Monad RTac NTac.
From Verif.Spec Require Import Missing.
From Verif.Proofs Require Import Missing.
From Verif.Model Require CoreUtility Numpy CorePhysics VanGent2001 VanGent2002Velocity VanGent2021Caisson KramerBurcharth2004 Jumelet2024.
From Verif.Model Require EtemadShahidi2020 EtemadShahidi2021 RearVanGent2007 RearVanGentPozueta2004 Takahashi1990 VanGent2023.
Import ListNotations.
Open Scope R_scope.

Ltac core := cbv beta delta [CorePhysics.calculate_wave_steepness_s CorePhysics.calculate_Iribarren_number_ksi
  CorePhysics.calculate_buoyant_density_Delta CorePhysics.calculate_stability_number_Ns CorePhysics.check_usage_Dn50_or_M50
  CorePhysics.check_usage_stabilitynumber CorePhysics.g_default CorePhysics.local_wavelength CorePhysics.two_pi Numpy.deg2rad].

Section Searches.
(** A step that gives no number gives none in the end. *)
Lemma iteration_nan step t n x : (forall x, step x = NaN) -> KramerBurcharth2004.iteration step (Fin t) (S n) x PInf PInf = NaN.
Proof. intros H. cbn [KramerBurcharth2004.iteration]. cbn. rewrite H. destruct n; cbn; reflexivity. Qed.

Definition unbound_or_none (o : option num) : Prop := o = None \/ o = Some NaN.
Lemma jumelet_loop_nan step Tmm10 cot_alpha tolerance : (forall k, step k = NaN) -> forall n prev diff ksi cur, unbound_or_none cur ->
  unbound_or_none (Jumelet2024.wave_height_loop step Tmm10 cot_alpha tolerance n prev diff ksi cur).
Proof.
  intros H. induction n as [|n IH]; intros prev diff ksi cur C; cbn [Jumelet2024.wave_height_loop]; destruct (ngt diff tolerance); try exact C.
  apply IH. right. rewrite H. reflexivity.
Qed.
Lemma diameter_loop_nan f core tolerance : (forall c, f c = NaN) -> forall n prev diff Cp cur, unbound_or_none cur ->
  unbound_or_none (EtemadShahidi2020.diameter_loop f core tolerance n prev diff Cp cur).
Proof.
  intros H. induction n as [|n IH]; intros prev diff Cp cur C; cbn [EtemadShahidi2020.diameter_loop]; destruct (ngt diff tolerance); try exact C.
  apply IH. right. rewrite H. reflexivity.
Qed.
Lemma search_nan zof Hof tolerance : (forall h, Hof h (zof h) = NaN) -> forall n h0 h1 z, z = None \/ h0 = NaN ->
  snd (RearVanGent2007.search zof Hof tolerance n h0 h1 z) = None \/ snd (fst (RearVanGent2007.search zof Hof tolerance n h0 h1 z)) = NaN.
Proof.
  intros H. induction n as [|n IH]; intros h0 h1 z C; cbn [RearVanGent2007.search]; [exact C|].
  destruct (ngt (nabs (nsub h0 h1)) tolerance); [|exact C]. apply IH. right. apply H.
Qed.
End Searches.

(** * C83 *)
(** Kramer and Burcharth: if at least one step is taken. *)
Theorem C83_kramer_searches :
  (forall Hs Rc rho_armour Ns_init n t, missing [Hs; Rc; rho_armour] ->
     no_number (KramerBurcharth2004.calculate_nominal_rock_diameter_Dn50 Hs Rc rho_armour Ns_init (S n) (Fin t))) /\
  (forall Hs rho_armour Dn50 M50 Rc_Dn50_init n t, missing [Hs; rho_armour] ->
     no_number (KramerBurcharth2004.calculate_crest_freeboard_Rc Hs rho_armour Dn50 M50 Rc_Dn50_init (S n) (Fin t))).
Proof.
  split; missing; cbv beta delta [KramerBurcharth2004.calculate_nominal_rock_diameter_Dn50 KramerBurcharth2004.calculate_crest_freeboard_Rc]; core; cbv beta zeta;
    try (apply no_number_bind; intros D);
    rewrite iteration_nan by (intros; cbv beta; nan; reflexivity); nanrun.
Qed.

(** Jumelet et al.: the search for the wave height. *)
Theorem C83_jumelet_search : forall Tmm10 N_waves cot_alpha rho_armour S Dn50 M50 c_pl g smm10_init n tolerance,
  missing [Tmm10; N_waves; cot_alpha; rho_armour; S; c_pl; g] ->
  no_number (Jumelet2024.calculate_significant_wave_height_Hs Tmm10 N_waves cot_alpha rho_armour S Dn50 M50 c_pl g smm10_init n tolerance).
Proof.
  missing; cbv beta delta [Jumelet2024.calculate_significant_wave_height_Hs]; apply no_number_bind; intros D; core; cbv beta zeta;
    match goal with |- context [Jumelet2024.wave_height_loop ?s ?T ?c ?t ?n ?p ?d ?k ?u] =>
      destruct (jumelet_loop_nan s T c t ltac:(intros; cbv beta; nan; reflexivity) n p d k u (or_introl eq_refl)) as [E|E]; rewrite E end; nanrun.
Qed.

(** Etemad-Shahidi et al. (2020): the search for the diameter. *)
Theorem C83_etemad_shahidi_2020_search : forall Hs Tmm10 N_waves cot_alpha rho_armour S Dn50_core M50_core rho_core m depth_limited Cp_init n tolerance,
  missing [Hs; Tmm10; N_waves; cot_alpha; rho_armour; S] ->
  no_number (EtemadShahidi2020.calculate_nominal_rock_diameter_Dn50 Hs Tmm10 N_waves cot_alpha rho_armour S Dn50_core M50_core rho_core m
    depth_limited Cp_init n tolerance).
Proof.
  missing; cbv beta delta [EtemadShahidi2020.calculate_nominal_rock_diameter_Dn50]; apply no_number_bind; intros I; apply no_number_bind; intros D; core; cbv beta zeta;
    do 2 match goal with |- context [EtemadShahidi2020.diameter_loop ?f ?c ?t ?n ?p ?d ?k ?u] =>
      destruct (diameter_loop_nan f c t ltac:(intros; cbv beta; nan; reflexivity) n p d k u (or_introl eq_refl)) as [?E|?E]; rewrite ?E; clear E;
      cbv beta delta [EtemadShahidi2020.bound]; cbv beta iota;
      [apply no_number_bind_raise || (apply no_number_bind_ret; apply no_number_bind_raise)|]; try (apply no_number_bind_ret; cbv beta zeta) end;
  nanrun.
Qed.

(** Etemad-Shahidi et al. (2021), with the given exponents, if at least one step is allowed. *)
Theorem C83_etemad_shahidi_2021_search : forall fuel Tmm10 h ht Bt Nod m Dn50 rho_rock rho_water g c1 c2 c7 smm10_init n,
  missing [Tmm10; h; ht; Bt; Nod; m; Dn50; rho_rock; rho_water; g; smm10_init] ->
  no_number (EtemadShahidi2021.calculate_significant_wave_height_Hs fuel Tmm10 h ht Bt Nod m Dn50 rho_rock rho_water g c1 c2
    EtemadShahidi2021.c3_d EtemadShahidi2021.c4_d EtemadShahidi2021.c5_d EtemadShahidi2021.c6_d c7 smm10_init (S n)).
Proof.
  assert (S : forall fuel Delta Dn50 h ht Bt Nod m Tmm10 g c1 c2 c3 c4 c5 c6 c7 n Hs Hs_prev Hs_diff smm10 r,
    EtemadShahidi2021.Hs_loop fuel Delta Dn50 h ht Bt Nod m Tmm10 g c1 c2 c3 c4 c5 c6 c7 0 n Hs Hs_prev Hs_diff smm10 = Ok r -> Hs = NaN -> Hs_diff = NaN -> r = NaN).
  { intros until r. intros E -> ->. destruct fuel; cbn in E; injection E as <-; reflexivity. }
  missing; intros x E; cbv beta delta [EtemadShahidi2021.calculate_significant_wave_height_Hs value snd] in E; cbv beta zeta iota in E;
  (destruct fuel as [|fuel]; [cbn in E; discriminate E|]); cbn [EtemadShahidi2021.Hs_loop] in E;
  change (ngt PInf (Fin 1e-3) && Nat.ltb 0 (Datatypes.S n))%bool with true in E; cbv beta iota zeta in E;
  refine (S _ _ _ _ _ _ _ _ _ _ _ _ _ _ _ _ _ _ _ _ _ _ _ E _ _); clear E; core;
  cbv beta delta [EtemadShahidi2021.c3_d EtemadShahidi2021.c4_d EtemadShahidi2021.c5_d EtemadShahidi2021.c6_d]; rewrite ?nneg_fin, ?ndiv_fin by rpos; nan; reflexivity.
Qed.

(** The rear side: the searches for the wave height. *)
Theorem C83_rear_searches :
  (forall cot_alpha cot_phi gamma S Tmm10 Rc Rc2_front Rc2_rear N_waves Dn50 M50 rho_rock tolerance n,
     missing [cot_alpha; cot_phi; gamma; S; Tmm10; Rc; Rc2_front; Rc2_rear; N_waves] ->
     no_number (RearVanGent2007.calculate_maximum_significant_wave_height_Hs cot_alpha cot_phi gamma S Tmm10 Rc Rc2_front Rc2_rear N_waves Dn50 M50 rho_rock tolerance n)) /\
  (forall cot_alpha cot_phi gamma_f gamma_f_Crest S Tmm10 Rc Rc_rear Bc N_waves Dn50 M50 rho_rock rho_water cs tolerance n,
     missing [cot_alpha; cot_phi; gamma_f; gamma_f_Crest; S; Tmm10; Rc; Rc_rear; Bc; N_waves; rho_rock; rho_water; cs] ->
     no_number (RearVanGentPozueta2004.calculate_maximum_significant_wave_height_Hs cot_alpha cot_phi gamma_f gamma_f_Crest S Tmm10 Rc Rc_rear Bc N_waves Dn50 M50
       rho_rock rho_water cs tolerance n)).
Proof.
  split; missing; cbv beta delta [RearVanGent2007.calculate_maximum_significant_wave_height_Hs RearVanGentPozueta2004.calculate_maximum_significant_wave_height_Hs]; core; cbv beta zeta;
    apply no_number_bind; intros D;
    match goal with |- context [RearVanGent2007.search ?z ?h ?t ?n ?a ?b ?u] =>
      let S := fresh in assert (S : forall x, h x (z x) = NaN) by (intros; cbv beta delta [RearVanGent2007.invert_for_z1p VanGent2001.invert_for_Hs
         VanGent2001.invert_c0 VanGent2001.invert_c1 RearVanGentPozueta2004.invert_for_u1p VanGent2002Velocity.invert_for_zXp
         VanGent2002Velocity.cu1_default VanGent2002Velocity.cu2_default]; core; nanrun);
      let C := fresh in pose proof (search_nan z h t S n a b u (or_introl eq_refl)) as C;
      destruct (RearVanGent2007.search z h t n a b u) as [[todo Hfound] z1p]; cbn [fst snd] in C; clear S;
      apply no_number_bind; intros []; destruct C as [-> | ->]; [apply no_number_raise|destruct z1p; nanrun] end.
Qed.

(** Van Gent (2021): the coefficients exist for two shapes only. *)
Lemma neqb_fin_r x a : neqb x (Fin a) = true -> x = Fin a.
Proof. destruct x as [r| | |]; cbn; intros E; try discriminate. unfold Reqb in E. destruct (Req_EM_T r a); [subst; reflexivity|discriminate]. Qed.
Theorem C83_vangent2021 :
  (forall Hm0 Rc beta gamma_beta Hm0_swell c c_swell short crossing parapet, missing [Hm0; Rc; Hm0_swell; c] ->
     no_number (VanGent2021Caisson.calculate_dimensionless_overtopping_discharge_q Hm0 Rc beta gamma_beta Hm0_swell c c_swell short crossing parapet)) /\
  (forall Hm0 Rc beta gamma_beta Hm0_swell c c_swell short crossing parapet g, missing [Hm0; Rc; Hm0_swell; c; g] ->
     no_number (VanGent2021Caisson.calculate_overtopping_discharge_q Hm0 Rc beta gamma_beta Hm0_swell c c_swell short crossing parapet g)) /\
  (forall Hm0 q beta gamma_beta Hm0_swell c c_swell short crossing parapet g, missing [Hm0; q; Hm0_swell; c; g] ->
     no_number (VanGent2021Caisson.calculate_dimensionless_crest_freeboard Hm0 q beta gamma_beta Hm0_swell c c_swell short crossing parapet g)) /\
  (forall Hm0 q beta gamma_beta Hm0_swell c c_swell short crossing parapet g, missing [Hm0; q; Hm0_swell; c; g] ->
     no_number (VanGent2021Caisson.calculate_crest_freeboard_Rc Hm0 q beta gamma_beta Hm0_swell c c_swell short crossing parapet g)) /\
  (forall Hm0 Rc Hm0_swell c c_swell short crossing parapet, no_number
     (VanGent2021Caisson.calculate_dimensionless_overtopping_discharge_q Hm0 Rc NaN NaN Hm0_swell c c_swell short crossing parapet)) /\
  (forall Hm0 q Hm0_swell c c_swell short crossing parapet g, no_number
     (VanGent2021Caisson.calculate_dimensionless_crest_freeboard Hm0 q NaN NaN Hm0_swell c c_swell short crossing parapet g)).
Proof.
  assert (Step : forall A (H : answer A) c s cr p (k : num * num * num * num -> M A),
    (c = Fin 1 -> forall t, no_number (k t)) -> (c = Fin 1.3 -> forall t, no_number (k t)) ->
    no_number (bind (VanGent2021Caisson.determine_coefficients c s cr p) k)).
  { intros A H c s cr p k K1 K2. unfold VanGent2021Caisson.determine_coefficients.
    destruct (neqb c (Fin 1)) eqn:E1; [apply neqb_fin_r in E1; apply no_number_bind; exact (K1 E1)|].
    destruct (neqb c (Fin 1.3)) eqn:E2; [apply neqb_fin_r in E2; apply no_number_bind; exact (K2 E2)|]. apply no_number_bind_raise. }
  repeat apply conj; intros; try missing;
    cbv beta delta [VanGent2021Caisson.calculate_overtopping_discharge_q VanGent2021Caisson.calculate_crest_freeboard_Rc
      VanGent2021Caisson.calculate_dimensionless_overtopping_discharge_q VanGent2021Caisson.calculate_dimensionless_crest_freeboard];
    try apply no_number_bind_assoc; apply Step; intros Ec [[[a b] cb] gp]; try discriminate Ec; subst;
    cbv beta delta [VanGent2021Caisson.swell_coefficient VanGent2021Caisson.calculate_influence_oblique_waves_gamma_beta]; core; rewrite ?ndiv_fin by rpos; nanrun.
Qed.

(** Takahashi et al.: period and gravity enter through the wave length. *)
Theorem C83_takahashi : forall disper, (forall T h, disper T h NaN = NaN) -> (forall T g, disper T NaN g = NaN) -> (forall h g, disper NaN h g = NaN) ->
  (forall Hs Tp hacc Bt beta g, missing [Hs; Tp; hacc; Bt; beta; g] -> no_number (Takahashi1990.calculate_stability_number_Ns disper Hs Tp hacc Bt beta g)) /\
  (forall Hs Tp hacc Bt rho_rock rho_water beta g, missing [Hs; Tp; hacc; Bt; rho_rock; rho_water; beta; g] ->
     no_number (Takahashi1990.calculate_nominal_diameter_Dn50 disper Hs Tp hacc Bt rho_rock rho_water beta g)).
Proof.
  intros disper D1 D2 D3.
  split; missing; cbv beta delta [Takahashi1990.calculate_stability_number_Ns Takahashi1990.calculate_nominal_diameter_Dn50 Takahashi1990.deg2rad]; core; cbv beta zeta;
    rewrite ?D1, ?D2, ?D3; nanrun.
Qed.

(** Transmission: Van Gent et al. (2023). *)
Theorem C83_vangent2023 : forall disper, (forall h g, disper NaN h g = NaN) -> forall Hm0 Tmm10 Rc B structure, missing [Hm0; Tmm10; Rc; B] ->
  no_number (VanGent2023.calculate_wave_transmission_Kt disper Hm0 Tmm10 Rc B structure).
Proof.
  intros disper D; missing; cbv beta delta [VanGent2023.calculate_wave_transmission_Kt VanGent2023.coefficients VanGent2023.deep_wavelength]; core;
    rewrite ?ndiv_nan_r, ?D; nanrun.
Qed.
