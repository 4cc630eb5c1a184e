(** Property C68: Xbloc and XblocPlus with arrays. *)
From Coq Require Import Reals Lra Lia List Bool Arith.
From Verif.Lib Require Import Num Monad Arr ArrFlags RTac NTac.
From Verif.Spec Require Import Arrays ArrayFlags ArrayStacks ArrayOne.
From Verif.Model Require Import CoreUtility.
From Verif.Model Require CorePhysics ArrCore Xbloc ArrXbloc.
From Verif.Proofs Require Import Core CheckTac Arrays ArrayFlags ArrayTaw ArrayStacks.
Import ListNotations.
Open Scope nat_scope.

(** ** Sizes and wave heights *)

#[local] Hint Unfold ArrXbloc.xbloc_wave_height_Hs_from_V ArrXbloc.xbloc_wave_height_Hs_from_M ArrXbloc.xbloc_unit_volume_V ArrXbloc.xbloc_unit_mass_M ArrXbloc.xblocplus_wave_height_Hs_from_V ArrXbloc.xblocplus_wave_height_Hs_from_M ArrXbloc.xblocplus_unit_volume_V ArrXbloc.xblocplus_unit_mass_M : arrays.
Ltac pure_tac := eapply place_by_place_intro; [reflexivity|expression_tac|intros; reflexivity].

Theorem C68_xbloc_Hs_from_V : forall V rho_water rho_armour factor,
  place_by_place [V; rho_water; rho_armour; factor]
    (ArrXbloc.xbloc_wave_height_Hs_from_V V rho_water rho_armour factor)
    (fun at_ => Ok (Xbloc.xbloc_wave_height_Hs_from_V (at_ V) (at_ rho_water) (at_ rho_armour) (at_ factor))).
Proof. intros. pure_tac. Qed.

Theorem C68_xbloc_Hs_from_M : forall m rho_water rho_armour factor,
  place_by_place [m; rho_water; rho_armour; factor]
    (ArrXbloc.xbloc_wave_height_Hs_from_M m rho_water rho_armour factor)
    (fun at_ => Ok (Xbloc.xbloc_wave_height_Hs_from_M (at_ m) (at_ rho_water) (at_ rho_armour) (at_ factor))).
Proof. intros. pure_tac. Qed.

Theorem C68_xbloc_V : forall Hs rho_water rho_armour factor,
  place_by_place [Hs; rho_water; rho_armour; factor]
    (ArrXbloc.xbloc_unit_volume_V Hs rho_water rho_armour factor)
    (fun at_ => Ok (Xbloc.xbloc_unit_volume_V (at_ Hs) (at_ rho_water) (at_ rho_armour) (at_ factor))).
Proof. intros. pure_tac. Qed.

Theorem C68_xbloc_M : forall Hs rho_water rho_armour factor,
  place_by_place [Hs; rho_water; rho_armour; factor]
    (ArrXbloc.xbloc_unit_mass_M Hs rho_water rho_armour factor)
    (fun at_ => Ok (Xbloc.xbloc_unit_mass_M (at_ Hs) (at_ rho_water) (at_ rho_armour) (at_ factor))).
Proof. intros. pure_tac. Qed.

Theorem C68_xblocplus_Hs_from_V : forall V rho_water rho_armour factor,
  place_by_place [V; rho_water; rho_armour; factor]
    (ArrXbloc.xblocplus_wave_height_Hs_from_V V rho_water rho_armour factor)
    (fun at_ => Ok (Xbloc.xblocplus_wave_height_Hs_from_V (at_ V) (at_ rho_water) (at_ rho_armour) (at_ factor))).
Proof. intros. pure_tac. Qed.

Theorem C68_xblocplus_Hs_from_M : forall m rho_water rho_armour factor,
  place_by_place [m; rho_water; rho_armour; factor]
    (ArrXbloc.xblocplus_wave_height_Hs_from_M m rho_water rho_armour factor)
    (fun at_ => Ok (Xbloc.xblocplus_wave_height_Hs_from_M (at_ m) (at_ rho_water) (at_ rho_armour) (at_ factor))).
Proof. intros. pure_tac. Qed.

Theorem C68_xblocplus_V : forall Hs rho_water rho_armour factor,
  place_by_place [Hs; rho_water; rho_armour; factor]
    (ArrXbloc.xblocplus_unit_volume_V Hs rho_water rho_armour factor)
    (fun at_ => Ok (Xbloc.xblocplus_unit_volume_V (at_ Hs) (at_ rho_water) (at_ rho_armour) (at_ factor))).
Proof. intros. pure_tac. Qed.

Theorem C68_xblocplus_M : forall Hs rho_water rho_armour factor,
  place_by_place [Hs; rho_water; rho_armour; factor]
    (ArrXbloc.xblocplus_unit_mass_M Hs rho_water rho_armour factor)
    (fun at_ => Ok (Xbloc.xblocplus_unit_mass_M (at_ Hs) (at_ rho_water) (at_ rho_armour) (at_ factor))).
Proof. intros. pure_tac. Qed.

(** ** Correction factors *)

Lemma one_holds c (a : nums) x e y : one_number a x -> e = value_of (Sc y) -> holds (cmp c a e) = ret (c x y).
Proof. intros H ->. destruct a as [z|[|z [|z' l]]]; try discriminate H; injection H as ->; reflexivity. Qed.
Lemma one_both c d (a : nums) x e y e' y' : one_number a x -> e = value_of (Sc y) -> e' = value_of (Sc y') ->
  ArrXbloc.both (cmp c a e) (cmp d a e') = ret (c x y && d x y')%bool.
Proof. intros H E E'. unfold ArrXbloc.both. rewrite !(one_holds _ a x _ _ H E), !(one_holds _ a x _ _ H E'), bind_ret_l. destruct (c x y); reflexivity. Qed.
Lemma several_holds {B} c (a : nums) e y (k : bool -> M B) : (forall x, ~ one_number a x) -> e = value_of (Sc y) -> value (b <- holds (cmp c a e) ;; k b) = Err ValueError.
Proof. intros H ->. destruct a as [x|[|x [|z l]]]; try reflexivity; exfalso; apply (H x); reflexivity. Qed.
Lemma several_both {B} c d (a : nums) e y e' (k : bool -> M B) : (forall x, ~ one_number a x) -> e = value_of (Sc y) ->
  value (b <- ArrXbloc.both (cmp c a e) (cmp d a e') ;; k b) = Err ValueError.
Proof. intros H E. unfold ArrXbloc.both. rewrite value_bind, (several_holds c a e y) by assumption. reflexivity. Qed.

Ltac one_tac H :=
  repeat (first [rewrite (one_both _ _ _ _ _ _ _ _ H) by reflexivity|rewrite (one_holds _ _ _ _ _ H) by reflexivity]; rewrite bind_ret_l;
    match goal with |- context [if ?b then _ else _] => destruct b eqn:? end; try reflexivity).
Ltac wants_tac := split;
  [let H := fresh "H" in intros ?a ?x H; one_tac H
  |let H := fresh "H" in intros ?a H; first [eapply several_both; [exact H|reflexivity]|eapply several_holds; [exact H|reflexivity]]].

Theorem C68_xbloc_factor_cotalpha_seabed : wants_one ArrXbloc.xbloc_factor_cotalpha_seabed Xbloc.xbloc_factor_cotalpha_seabed.
Proof. unfold ArrXbloc.xbloc_factor_cotalpha_seabed, Xbloc.xbloc_factor_cotalpha_seabed. wants_tac. Qed.

Theorem C68_xbloc_factor_percslope_seabed : wants_one ArrXbloc.xbloc_factor_percslope_seabed Xbloc.xbloc_factor_percslope_seabed.
Proof.
  unfold ArrXbloc.xbloc_factor_percslope_seabed, Xbloc.xbloc_factor_percslope_seabed. split; intros a.
  - intros x H. apply (steps _ _ (amap (ndiv (Fin 100)) a)); [destruct a; reflexivity|].
    apply C68_xbloc_factor_cotalpha_seabed. destruct a as [y|[|y [|z l]]]; try discriminate H; injection H as ->; reflexivity.
  - intros H. apply (steps _ _ (amap (ndiv (Fin 100)) a)); [destruct a; reflexivity|].
    apply C68_xbloc_factor_cotalpha_seabed. intros x Q. destruct a as [y|[|y [|z l]]]; try discriminate Q; apply (H y); reflexivity.
Qed.

Theorem C68_xbloc_factor_relative_freeboard : wants_one ArrXbloc.xbloc_factor_relative_freeboard Xbloc.xbloc_factor_relative_freeboard.
Proof. unfold ArrXbloc.xbloc_factor_relative_freeboard, Xbloc.xbloc_factor_relative_freeboard. wants_tac. Qed.

Theorem C68_xbloc_factor_rel_depth : wants_one ArrXbloc.xbloc_factor_rel_depth Xbloc.xbloc_factor_rel_depth.
Proof. unfold ArrXbloc.xbloc_factor_rel_depth, Xbloc.xbloc_factor_rel_depth. wants_tac. Qed.

Theorem C68_xbloc_factor_structure_slope : wants_one ArrXbloc.xbloc_factor_structure_slope Xbloc.xbloc_factor_structure_slope.
Proof. unfold ArrXbloc.xbloc_factor_structure_slope, Xbloc.xbloc_factor_structure_slope. wants_tac. Qed.

Theorem C68_xblocplus_factor_cotalpha_seabed : wants_one ArrXbloc.xblocplus_factor_cotalpha_seabed Xbloc.xblocplus_factor_cotalpha_seabed.
Proof. unfold ArrXbloc.xblocplus_factor_cotalpha_seabed, Xbloc.xblocplus_factor_cotalpha_seabed. wants_tac. Qed.

Theorem C68_xblocplus_factor_percslope_seabed : wants_one ArrXbloc.xblocplus_factor_percslope_seabed Xbloc.xblocplus_factor_percslope_seabed.
Proof.
  unfold ArrXbloc.xblocplus_factor_percslope_seabed, Xbloc.xblocplus_factor_percslope_seabed. split; intros a.
  - intros x H. apply (steps _ _ (amap (ndiv (Fin 100)) a)); [destruct a; reflexivity|].
    apply C68_xblocplus_factor_cotalpha_seabed. destruct a as [y|[|y [|z l]]]; try discriminate H; injection H as ->; reflexivity.
  - intros H. apply (steps _ _ (amap (ndiv (Fin 100)) a)); [destruct a; reflexivity|].
    apply C68_xblocplus_factor_cotalpha_seabed. intros x Q. destruct a as [y|[|y [|z l]]]; try discriminate Q; apply (H y); reflexivity.
Qed.

Theorem C68_xblocplus_factor_relative_freeboard : wants_one ArrXbloc.xblocplus_factor_relative_freeboard Xbloc.xblocplus_factor_relative_freeboard.
Proof. unfold ArrXbloc.xblocplus_factor_relative_freeboard, Xbloc.xblocplus_factor_relative_freeboard. wants_tac. Qed.

(** Concrete twice as heavy as water: wave heights of 2.77 m and 5.54 m take volumes of 1 m3
    and 8 m3. *)
Example C68_volumes : value (ArrXbloc.xbloc_unit_volume_V (Ar [Fin 2.77; Fin 5.54]) (lit 1000) (lit 2000) (lit 1)) = Ok (Ar [Fin 1; Fin 8]).
Proof.
  destruct (C68_xbloc_V (Ar [Fin 2.77; Fin 5.54]) (lit 1000) (lit 2000) (lit 1)) as (H & _).
  destruct (H (Some 2)) as (r & E & S & V).
  { split; [apply shapes_ok; reflexivity|]. right. left. reflexivity. }
  assert (W : forall x, (0 < x)%R -> Xbloc.xbloc_unit_volume_V (Fin x) (Fin 1000) (Fin 2000) (Fin 1) = Fin ((x / 2.77) * ((x / 2.77) * (x / 2.77)))).
  { intros x P. unfold Xbloc.xbloc_unit_volume_V, CorePhysics.calculate_buoyant_density_Delta. nfin.
    replace (x / (2.77 * ((2000 - 1000) / 1000)))%R with (x / 2.77)%R by (field; lra). f_equal. ring. }
  rewrite E. f_equal. destruct r as [x|[|x [|y [|z l]]]]; try discriminate S.
  pose proof (V 0 ltac:(cbn; lia) : Ok (Xbloc.xbloc_unit_volume_V (Fin 2.77) (Fin 1000) (Fin 2000) (Fin 1)) = Ok x) as V0.
  pose proof (V 1 ltac:(cbn; lia) : Ok (Xbloc.xbloc_unit_volume_V (Fin 5.54) (Fin 1000) (Fin 2000) (Fin 1)) = Ok y) as V1.
  rewrite W in V0 by lra. rewrite W in V1 by lra. injection V0 as <-. injection V1 as <-.
  assert (D : (5.54 / 2.77 = 2)%R) by (apply (Rmult_eq_reg_r 2.77); [unfold Rdiv; rewrite Rmult_assoc, Rinv_l by lra; lra|lra]).
  replace (2.77 / 2.77 * (2.77 / 2.77 * (2.77 / 2.77)))%R with 1%R by (field; lra). rewrite D. replace (2 * (2 * 2))%R with 8%R by ring. reflexivity.
Qed.

(** Seabed slopes of 1 in 40 and 1 in 12: no factors for the two, although each has one. *)
Example C68_seabeds :
  value (ArrXbloc.xbloc_factor_cotalpha_seabed (Ar [Fin 40; Fin 12])) = Err ValueError
  /\ Xbloc.xbloc_factor_cotalpha_seabed (Fin 40) = Fin 1 /\ Xbloc.xbloc_factor_cotalpha_seabed (Fin 12) = Fin 1.5.
Proof.
  split; [apply C68_xbloc_factor_cotalpha_seabed; intros x H; discriminate H|].
  unfold Xbloc.xbloc_factor_cotalpha_seabed, ngt. nfin.
  split; rewrite ?(Rleb_false 40), ?(Rleb_true 12 30), ?(Rltb_false 20 12), ?(Rleb_true 12 20), ?(Rltb_false 15 12), ?(Rleb_true 12 15), ?(Rltb_true 10 12) by lra; reflexivity.
Qed.
