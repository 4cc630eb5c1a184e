(** Property C61: calls with arrays work place by place.  The basic quantities. *)
From Coq Require Import Reals Lra List Bool Arith String.
From Verif.Lib Require Import Num Monad Arr RTac NTac.
From Verif.Spec Require Import Arrays.
From Verif.Model Require CorePhysics ArrCore.
From Verif.Proofs Require Import Core CheckTac Arrays.
Import ListNotations.
Open Scope nat_scope.

Theorem C61_steepness : forall H T g,
  elementwise [H; T; g] (ArrCore.calculate_wave_steepness_s H T g)
    (fun at_ => Ok (CorePhysics.calculate_wave_steepness_s (at_ H) (at_ T) (at_ g))).
Proof. intros. array_tac. Qed.

Theorem C61_iribarren : forall H T cot,
  elementwise [H; T; cot] (ArrCore.calculate_Iribarren_number_ksi H T cot)
    (fun at_ => Ok (CorePhysics.calculate_Iribarren_number_ksi (at_ H) (at_ T) (at_ cot))).
Proof. intros. array_tac. Qed.

Theorem C61_critical_iribarren : forall c_pl c_s P cot,
  elementwise [c_pl; c_s; P; cot] (ArrCore.calculate_critical_Iribarren_number_ksi_mc c_pl c_s P cot)
    (fun at_ => Ok (CorePhysics.calculate_critical_Iribarren_number_ksi_mc (at_ c_pl) (at_ c_s) (at_ P) (at_ cot))).
Proof. intros. array_tac. Qed.

Theorem C61_Delta : forall rho_rock rho_water,
  elementwise [rho_rock; rho_water] (ArrCore.calculate_buoyant_density_Delta rho_rock rho_water)
    (fun at_ => Ok (CorePhysics.calculate_buoyant_density_Delta (at_ rho_rock) (at_ rho_water))).
Proof. intros. array_tac. Qed.

Theorem C61_Ns : forall H D rho_rock rho_water,
  elementwise [H; D; rho_rock; rho_water] (ArrCore.calculate_stability_number_Ns H D rho_rock rho_water)
    (fun at_ => Ok (CorePhysics.calculate_stability_number_Ns (at_ H) (at_ D) (at_ rho_rock) (at_ rho_water))).
Proof. intros. array_tac. Qed.

Theorem C61_M50 : forall Dn50 rho_rock,
  elementwise [Dn50; rho_rock] (ArrCore.calculate_M50_from_Dn50 Dn50 rho_rock)
    (fun at_ => Ok (CorePhysics.calculate_M50_from_Dn50 (at_ Dn50) (at_ rho_rock))).
Proof. intros. array_tac. Qed.

Theorem C61_Dn50 : forall M50 rho_rock,
  elementwise [M50; rho_rock] (ArrCore.calculate_Dn50_from_M50 M50 rho_rock)
    (fun at_ => Ok (CorePhysics.calculate_Dn50_from_M50 (at_ M50) (at_ rho_rock))).
Proof. intros. array_tac. Qed.

Theorem C61_S_from_Nod : forall Nod G nv,
  elementwise [Nod; G; nv] (ArrCore.calculate_S_from_Nod Nod G nv)
    (fun at_ => Ok (CorePhysics.calculate_S_from_Nod (at_ Nod) (at_ G) (at_ nv))).
Proof. intros. array_tac. Qed.

Theorem C61_Nod_from_S : forall S G nv,
  elementwise [S; G; nv] (ArrCore.calculate_Nod_from_S S G nv)
    (fun at_ => Ok (CorePhysics.calculate_Nod_from_S (at_ S) (at_ G) (at_ nv))).
Proof. intros. array_tac. Qed.

(** The stone size, when it is given for every place or for none. *)
Theorem C61_size_given : forall Dn50 M50 rho, filled Dn50 ->
  elementwise [Dn50] (ArrCore.check_usage_Dn50_or_M50 Dn50 M50 rho)
    (fun at_ => value (CorePhysics.check_usage_Dn50_or_M50 (at_ Dn50) (at_ M50) (at_ rho))).
Proof. intros. array_tac. Qed.

Theorem C61_size_from_mass : forall Dn50 M50 rho, missing Dn50 -> filled M50 -> filled rho ->
  elementwise [M50; rho] (ArrCore.check_usage_Dn50_or_M50 Dn50 M50 rho)
    (fun at_ => value (CorePhysics.check_usage_Dn50_or_M50 (at_ Dn50) (at_ M50) (at_ rho))).
Proof. intros. array_tac. Qed.

Theorem C61_size_from_mass_default : forall Dn50 M50 rho, missing Dn50 -> filled M50 -> missing rho ->
  elementwise [M50] (ArrCore.check_usage_Dn50_or_M50 Dn50 M50 rho)
    (fun at_ => value (CorePhysics.check_usage_Dn50_or_M50 (at_ Dn50) (at_ M50) (at_ rho))).
Proof.
  intros Dn50 M50 rho N F D. unfold ArrCore.check_usage_Dn50_or_M50.
  rewrite (missing_all _ N), (filled_not_all _ F), (missing_all _ D). cbn [andb negb].
  autounfold with arrays. elementwise_tac.
  - reflexivity.
  - unfold CorePhysics.check_usage_Dn50_or_M50.
    rewrite (missing_place _ _ N), (missing_place _ _ D), (filled_place _ sh i F) by assumption. reflexivity.
Qed.

Theorem C61_size_missing : forall Dn50 M50 rho, missing Dn50 -> missing M50 ->
  value (ArrCore.check_usage_Dn50_or_M50 Dn50 M50 rho) = Err ValueError
  /\ forall i, value (CorePhysics.check_usage_Dn50_or_M50 (place i Dn50) (place i M50) (place i rho)) = Err ValueError.
Proof.
  intros Dn50 M50 rho N F. split.
  - unfold ArrCore.check_usage_Dn50_or_M50. rewrite (missing_all _ N), (missing_all _ F). reflexivity.
  - intros i. unfold CorePhysics.check_usage_Dn50_or_M50. rewrite (missing_place _ _ N), (missing_place _ _ F). reflexivity.
Qed.

(** The fourth of wave height, diameter, density and stability number. *)
Theorem C61_missing_of_four : forall H D Delta N,
  elementwise [D; Delta; N] (ArrCore.first (ArrCore.check_usage_stabilitynumber None (Some D) (Some Delta) (Some N)))
    (fun at_ => Ok (at_ D * at_ Delta * at_ N)%num)
  /\ elementwise [H; Delta; N] (ArrCore.first (ArrCore.check_usage_stabilitynumber (Some H) None (Some Delta) (Some N)))
    (fun at_ => Ok (at_ H / at_ N / at_ Delta)%num)
  /\ elementwise [H; D; N] (ArrCore.first (ArrCore.check_usage_stabilitynumber (Some H) (Some D) None (Some N)))
    (fun at_ => Ok (at_ H / at_ N / at_ D)%num)
  /\ elementwise [H; D; Delta] (ArrCore.first (ArrCore.check_usage_stabilitynumber (Some H) (Some D) (Some Delta) None))
    (fun at_ => Ok (at_ H / (at_ Delta * at_ D))%num).
Proof.
  intros. unfold ArrCore.check_usage_stabilitynumber. rewrite !first_bind.
  split; [|split; [|split]]; elementwise_tac; reflexivity.
Qed.

(** Two wave heights with one period and three slopes do not broadcast. *)
Example C61_example_shapes :
  (exists r, value (ArrCore.calculate_Iribarren_number_ksi (Ar [#1; #2]) (Sc #8) (Ar [#3; #4])) = Ok r /\ shape r = Some 2)
  /\ value (ArrCore.calculate_Iribarren_number_ksi (Ar [#1; #2]) (Sc #8) (Ar [#3; #4; #5])) = Err ValueError.
Proof.
  split.
  - edestruct (proj1 (C61_iribarren (Ar [#1; #2]%num) (Sc #8%num) (Ar [#3; #4]%num)) (Some 2)) as (r & E & S & _).
    + split; [|right; left; reflexivity]. apply shapes_ok; reflexivity.
    + exists (Some 2). apply shapes_ok; reflexivity.
    + exists r. auto.
  - unfold ArrCore.calculate_Iribarren_number_ksi, ArrCore.calculate_wave_steepness_s. reflexivity.
Qed.

Example C61_example_Delta :
  value (ArrCore.calculate_buoyant_density_Delta (Ar [#2000; #3000]) (Sc #1000)) = Ok (Ar [#1; #2]%num).
Proof.
  unfold ArrCore.calculate_buoyant_density_Delta. cbn. rewrite !Reqb_false by lra. repeat f_equal; lra.
Qed.
