(** Property C67: examples, and why the arguments checked have to be given everywhere or
    nowhere. *)
From Coq Require Import Reals Lra Lia List Bool Arith String.
From Verif.Lib Require Import Num Monad Arr RTac NTac.
From Verif.Spec Require Import Arrays ArrayWarnings ArrayCalls.
From Verif.Model Require Import CoreUtility ArrCore.
From Verif.Model Require ArrHudsonUnits HudsonUnits.
From Verif.Proofs Require Import Core CheckTac Arrays.
From Verif.Props Require Import CallsArmour.
Import ListNotations.
Open Scope nat_scope.

Lemma slope_warnings x : warns (HudsonUnits.accropode2_KD_breaking (Fin x))
  = warns (check "Seabed slope in percentage" "Accropode II documentation" (Fin x) #0%num #10%num).
Proof. unfold HudsonUnits.accropode2_KD_breaking, HudsonUnits.accropode2_check_validity_range. unfold provided. cbn [isnan negb when]. destruct (check _ _ _ _ _) as [ws [u|e]]; cbn; rewrite ?app_nil_r; reflexivity. Qed.
Lemma slope_quiet x : (0 <= x <= 10)%R -> warns (HudsonUnits.accropode2_KD_breaking (Fin x)) = [].
Proof. intros H. rewrite slope_warnings. unfold check, check_variable_validity_range, check_values, ngt. nfin. rewrite !Rltb_false by lra. reflexivity. Qed.
Lemma slope_warned x : (10 < x)%R -> List.length (warns (HudsonUnits.accropode2_KD_breaking (Fin x))) = 1.
Proof. intros H. rewrite slope_warnings. unfold check, check_variable_validity_range, check_values, ngt. nfin. rewrite (Rltb_true 10 x) by lra. rewrite orb_true_r. reflexivity. Qed.

(** Seabed slopes of 5 and 20 percent: the warnings are those of 20 percent, of which there
    is one. *)
Example C67_example :
  (forall w, In w (warns (ArrHudsonUnits.accropode2_KD_breaking (Ar [Fin 5; Fin 20])))
     <-> In w (warns (HudsonUnits.accropode2_KD_breaking (Fin 20))))
  /\ List.length (warns (HudsonUnits.accropode2_KD_breaking (Fin 20))) = 1.
Proof.
  split; [|apply slope_warned; lra].
  intros w. destruct (C67_accropode2_KD (Ar [Fin 5; Fin 20]) (Some 2)) as (_ & _ & W).
  - split; [repeat (constructor; [solve [unfold stretches; cbn; auto 6]|]); constructor|]. right. apply Exists_cons_hd. reflexivity.
  - discriminate.
  - repeat (constructor; [left; split; [discriminate|repeat (constructor; [reflexivity|]); constructor]|]). constructor.
  - constructor.
  - rewrite W. split.
    + intros (i & I & H). cbn in I. destruct i as [|[|i]]; [|exact H|lia].
      change (In w (warns (HudsonUnits.accropode2_KD_breaking (Fin 5)))) in H. rewrite slope_quiet in H by lra. destruct H.
    + intros H. exists 1. split; [cbn; lia|exact H].
Qed.

(** Without the condition that a checked argument is given everywhere or nowhere the
    warnings are not those of the places: with a seabed slope missing at one place and 20
    percent at the other the call returns and says nothing, the scalar call for 20 percent
    warns. *)
Theorem C67_mixed_refuted : exists seabed_slope_perc i,
  common [seabed_slope_perc] (Some 2) /\ inside (Some 2) i
  /\ (exists r, ArrHudsonUnits.accropode2_KD_breaking seabed_slope_perc = ([], Ok r))
  /\ warns (HudsonUnits.accropode2_KD_breaking (place i seabed_slope_perc)) <> [].
Proof.
  exists (Ar [NaN; Fin 20]), 1. split; [|split; [|split]].
  - split; [repeat (constructor; [solve [unfold stretches; cbn; auto 6]|]); constructor|]. right. apply Exists_cons_hd. reflexivity.
  - cbn. lia.
  - eexists. reflexivity.
  - intros H. pose proof (slope_warned 20 ltac:(lra)) as L. cbn [place nth entries] in H. change (place 1 (Ar [NaN; Fin 20])) with (Fin 20) in H. rewrite H in L. discriminate.
Qed.
