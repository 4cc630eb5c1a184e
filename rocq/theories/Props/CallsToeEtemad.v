(** Property C67: how calls with arrays end and what they report. *)
From Coq Require Import Reals Lra Lia List Bool Arith String.
From Verif.Lib Require Import Num Monad Arr ArrFlags ArrLoop RTac NTac.
From Verif.Spec Require Import Arrays ArrayWarnings ArrayCalls.
From Verif.Model Require Import CoreUtility ArrCore.
From Verif.Proofs Require Import Core CheckTac Arrays ArrayWarnings ArrayCalls.
From Verif.Model Require ArrEtemadShahidi2021 CorePhysics EtemadShahidi2021.
Import ListNotations.
Open Scope nat_scope.

#[local] Hint Unfold ArrEtemadShahidi2021.calculate_damage_Nod ArrEtemadShahidi2021.calculate_nominal_diameter_Dn50 ArrEtemadShahidi2021.check_validity_Hs_ht ArrEtemadShahidi2021.check_validity : arrays.
#[local] Hint Unfold EtemadShahidi2021.calculate_damage_Nod EtemadShahidi2021.calculate_nominal_diameter_Dn50 EtemadShahidi2021.check_validity_Hs_ht
  EtemadShahidi2021.check_validity EtemadShahidi2021.check_validity : scalars.

Theorem C67_etemad2021_Nod : forall Hs Tmm10 h ht Bt m Dn50 rho_rock rho_water g c1 c2 c3 c4 c5 c6 c7,
  reports_call [Hs; Tmm10; h; ht; Bt; m; Dn50; rho_rock; rho_water; g; c1; c2; c3; c4; c5; c6; c7] [Hs; ht] []
    (ArrEtemadShahidi2021.calculate_damage_Nod Hs Tmm10 h ht Bt m Dn50 rho_rock rho_water g c1 c2 c3 c4 c5 c6 c7)
    (fun at_ => EtemadShahidi2021.calculate_damage_Nod (at_ Hs) (at_ Tmm10) (at_ h) (at_ ht) (at_ Bt) (at_ m) (at_ Dn50) (at_ rho_rock) (at_ rho_water) (at_ g)
      (at_ c1) (at_ c2) (at_ c3) (at_ c4) (at_ c5) (at_ c6) (at_ c7)).
Proof. intros. call_tac. Qed.

Theorem C67_etemad2021_Dn50 : forall Hs Tmm10 h ht Bt Nod m rho_rock rho_water g c1 c2 c3 c4 c5 c6 c7,
  reports_call [Hs; Tmm10; h; ht; Bt; Nod; m; rho_rock; rho_water; g; c1; c2; c3; c4; c5; c6; c7] [Hs; ht] []
    (ArrEtemadShahidi2021.calculate_nominal_diameter_Dn50 Hs Tmm10 h ht Bt Nod m rho_rock rho_water g c1 c2 c3 c4 c5 c6 c7)
    (fun at_ => EtemadShahidi2021.calculate_nominal_diameter_Dn50 (at_ Hs) (at_ Tmm10) (at_ h) (at_ ht) (at_ Bt) (at_ Nod) (at_ m) (at_ rho_rock) (at_ rho_water) (at_ g)
      (at_ c1) (at_ c2) (at_ c3) (at_ c4) (at_ c5) (at_ c6) (at_ c7)).
Proof. intros. call_tac. Qed.
