(** A missing number does not turn into a number: caissons of Goda. *)
From Coq Require Import Reals Lra List Bool String ZArith.
From Verif.Lib Require Import Num Monad RTac NTac.
From Verif.Spec Require Import Missing.
From Verif.Proofs Require Import Missing.
From Verif.Model Require CoreUtility Numpy CorePhysics VanGent2001 VanGent2002Velocity VanGent2021Caisson KramerBurcharth2004 Jumelet2024.
From Verif.Model Require EtemadShahidi2020 EtemadShahidi2021 RearVanGent2007 RearVanGentPozueta2004 Takahashi1990 Goda1985.
Import ListNotations.
Open Scope R_scope.

Ltac core := cbv beta delta [CorePhysics.calculate_wave_steepness_s CorePhysics.calculate_Iribarren_number_ksi
  CorePhysics.calculate_buoyant_density_Delta CorePhysics.calculate_stability_number_Ns CorePhysics.check_usage_Dn50_or_M50
  CorePhysics.check_usage_stabilitynumber CorePhysics.g_default CorePhysics.local_wavelength CorePhysics.two_pi Numpy.deg2rad].

(** The last two answers of Goda's function. *)
Definition sliding (r : Goda1985.reactions) : num := snd (fst r).
Definition overturning (r : Goda1985.reactions) : num := snd r.
(** Go through assignments; forget what is assigned unless it is no number. *)
Lemma let_nan {A} `{answer A} (v : num) (b : num -> A) : v = NaN -> no_number (b NaN) -> no_number (let x := v in b x).
Proof. intros -> K. exact K. Qed.
Lemma let_any {A B} `{answer A} (v : B) (b : B -> A) : (forall x, no_number (b x)) -> no_number (let x := v in b x).
Proof. intros K. exact (K v). Qed.
Lemma bind_let_nan {A B} `{answer A} (v : num) (b : num -> M B) (k : B -> M A) :
  v = NaN -> no_number (bind (b NaN) k) -> no_number (bind (let x := v in b x) k).
Proof. intros -> K. exact K. Qed.
Lemma bind_let_any {A B C} `{answer A} (v : C) (b : C -> M B) (k : B -> M A) :
  (forall x, no_number (bind (b x) k)) -> no_number (bind (let x := v in b x) k).
Proof. intros K. exact (K v). Qed.
Ltac isnone v := lazymatch v with context [NaN] => idtac end; nan; reflexivity.
Ltac godastep :=
  lazymatch goal with
  | |- no_number (let x := ?v in @?b x) => first [apply (let_nan v b); [solve [isnone v]|] | apply (let_any v b); intro]; cbv beta
  | |- no_number (bind (let x := ?v in @?b x) ?k) => first [apply (bind_let_nan v b k); [solve [isnone v]|] | apply (bind_let_any v b k); intro]; cbv beta
  | |- no_number (bind (bind _ _) _) => apply no_number_bind_assoc
  | |- no_number (bind (ret _) _) => apply no_number_bind_ret; cbv beta iota delta [fst snd]
  | |- no_number (bind (if ?c then _ else _) _) =>
      first [lazymatch c with context [NaN] => idtac end; replace c with false by (symmetry; nan; reflexivity); cbv iota | destruct c]
  | |- no_number (bind (raise _) _) => apply no_number_bind_raise
  | |- no_number (bind (match Goda1985.calculate_bearing_pressures _ _ _ _ _ _ with _ => _ end) _) =>
      cbv beta delta [Goda1985.calculate_bearing_pressures Goda1985.calculate_Wup Goda1985.calculate_safety_factors sliding overturning] zeta iota; nan
  | |- no_number (bind _ _) => apply no_number_bind; intros ?; cbv beta
  | |- no_number (ret _) => apply no_number_ret; nanrun
  end.

(** * C83 *)
(** Goda: the safety factors. *)
Theorem C83_goda : forall disper, (forall T h, disper T h NaN = NaN) -> (forall T g, disper T NaN g = NaN) -> (forall h g, disper NaN h g = NaN) ->
  forall HD Hsi Tmax beta h_s d B1 cota_seabed rho_water hacc Rc Bup rho_above rho_below steepness muf tup_over_Bup g,
  let answer := Goda1985.calculate_forces_and_reactions_tuple disper HD Hsi Tmax beta h_s d B1 cota_seabed rho_water hacc Rc Bup rho_above rho_below
    steepness muf tup_over_Bup g in
  (missing [HD; Hsi; Tmax; beta; h_s; d; cota_seabed; rho_water; hacc; Rc; Bup; rho_above; rho_below; muf; g] ->
     no_number (bind answer (fun r => ret (sliding r)))) /\
  (missing [HD; Hsi; Tmax; beta; h_s; d; cota_seabed; rho_water; hacc; Rc; Bup; rho_above; rho_below; tup_over_Bup; g] ->
     no_number (bind answer (fun r => ret (overturning r)))).
Proof.
  intros disper D1 D2 D3; intros.
  split; missing; unfold answer; clear answer; cbv beta delta [Goda1985.calculate_forces_and_reactions_tuple Goda1985.calculate_forces_and_reactions Goda1985.calculate_pressures_and_forces_tuple
    Goda1985.calculate_pressures_and_forces Goda1985.calculate_Wup]; core;
    rewrite ?ndiv_nan_r, ?D1, ?D2, ?D3.
  all: repeat apply no_number_bind_assoc.
  all: repeat godastep.
Qed.
