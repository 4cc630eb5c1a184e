(** Property C52: Van der Meer (1998). *)
From Coq Require Import Reals Lra List Bool String.
From Verif.Lib Require Import Num Monad RTac NTac.
From Verif.Spec Require Import Waves Toe.
From Verif.Model Require Import CoreUtility CorePhysics VanderMeer1998.
From Verif.Proofs Require Import Core CheckTac.
Import ListNotations.
Open Scope R_scope.

Lemma checks Hs ht h D N De : value (check_validity Hs ht h D N De) = Ok tt.
Proof. unfold check_validity. mchecks. reflexivity. Qed.

Lemma solve_Hs De Hs ht h Dn50 Nod : 0 < De -> 0 < Dn50 ->
  vandermeer1998 De Hs ht h Dn50 Nod ->
  Hs = (6.2 * Rpower (ht / h) 2.7 + 2) * Rpower Nod 0.15 * De * Dn50.
Proof.
  intros ? ? E. unfold vandermeer1998 in E.
  transitivity (Hs / (De * Dn50) * (De * Dn50)); [rfld|]. rewrite E. rfld.
Qed.

Theorem C52_functions_agree_with_relation :
  forall Hs ht h Dn50 Nod rs rw,
    0 < Hs -> 0 < ht -> 0 < h -> 0 < Dn50 -> 0 < Nod -> 0 < rw -> rw < rs ->
    vandermeer1998 (rs / rw - 1) Hs ht h Dn50 Nod ->
    value (calculate_damage_Nod (Fin Hs) (Fin ht) (Fin h) (Fin Dn50) (Fin rs) (Fin rw)) = Ok (Fin Nod)
    /\ value (calculate_nominal_diameter_Dn50 (Fin Hs) (Fin ht) (Fin h) (Fin Nod) (Fin rs) (Fin rw)) = Ok (Fin Dn50)
    /\ value (calculate_wave_height_Hs (Fin Dn50) (Fin ht) (Fin h) (Fin Nod) (Fin rs) (Fin rw)) = Ok (Fin Hs)
    /\ value (calculate_depth_above_toe_ht (Fin Hs) (Fin Dn50) (Fin h) (Fin Nod) (Fin rs) (Fin rw)) = Ok (Fin ht).
Proof.
  intros * HHs Hht Hh HD HN Hw Hsw E.
  pose proof (buoyant_pos rs rw Hw Hsw) as HDe.
  fold (buoyant rs rw) in E. set (De := buoyant rs rw) in *.
  pose proof (solve_Hs De Hs ht h Dn50 Nod HDe HD E) as EH. unfold vandermeer1998 in E.
  assert (HP : 0 < Rpower Nod 0.15) by rpos.
  assert (HQ : 0 < Rpower (ht / h) 2.7) by rpos.
  assert (0 < ht / h) by rpos.
  assert (HDD : 0 < De * Dn50) by rpos.
  assert (EN : Rpower Nod (-(0.15)) = / Rpower Nod 0.15) by apply Rpower_Ropp.
  unfold calculate_damage_Nod, calculate_nominal_diameter_Dn50, calculate_wave_height_Hs,
    calculate_depth_above_toe_ht.
  rewrite !Delta_fin by lra. fold De.
  repeat split; mval; rewrite checks; nfin; mval; try (do 2 f_equal).
  - rewrite E.
    replace ((6.2 * Rpower (ht / h) 2.7 + 2) * Rpower Nod 0.15 / (2 + 6.2 * Rpower (ht / h) 2.7))
      with (Rpower Nod 0.15) by (field; lra).
    apply Rpower_cancel; [assumption|]. rfld.
  - rewrite EH. rfld.
  - rewrite EH, EN. rfld.
  - assert (EQ : (Hs * Rpower Nod (-(0.15)) / (De * Dn50) - 2) / 6.2 = Rpower (ht / h) 2.7).
    { rewrite EN, EH. rfld. }
    rewrite EQ, Rltb_true by assumption. nfin. do 2 f_equal.
    rewrite Rpower_cancel; [field; lra | assumption | rfld].
Qed.

Theorem C52_damage_total :
  forall Hs ht h Dn50 rs rw,
    0 < Hs -> 0 < ht -> 0 < h -> 0 < Dn50 -> 0 < rw -> rw < rs ->
    exists Nod, 0 < Nod
      /\ value (calculate_damage_Nod (Fin Hs) (Fin ht) (Fin h) (Fin Dn50) (Fin rs) (Fin rw)) = Ok (Fin Nod)
      /\ vandermeer1998 (rs / rw - 1) Hs ht h Dn50 Nod.
Proof.
  intros. pose proof (buoyant_pos rs rw) as HDe. assert (0 < buoyant rs rw) by auto.
  assert (HQ : 0 < Rpower (ht / h) 2.7) by rpos.
  set (N := Rpower ((Hs / (buoyant rs rw * Dn50)) / (6.2 * Rpower (ht / h) 2.7 + 2)) (1 / 0.15)).
  assert (G : vandermeer1998 (rs / rw - 1) Hs ht h Dn50 N).
  { unfold vandermeer1998. fold (buoyant rs rw). unfold N.
    rewrite Rpower_cancel; [rfld| rpos |rfld]. }
  assert (0 < N) by (unfold N; rpos).
  exists N. repeat split; [assumption| |assumption].
  apply (C52_functions_agree_with_relation Hs ht h Dn50 N rs rw); assumption.
Qed.

Theorem C52_wave_height_total :
  forall Nod ht h Dn50 rs rw,
    0 < Nod -> 0 < ht -> 0 < h -> 0 < Dn50 -> 0 < rw -> rw < rs ->
    exists Hs, 0 < Hs
      /\ value (calculate_wave_height_Hs (Fin Dn50) (Fin ht) (Fin h) (Fin Nod) (Fin rs) (Fin rw)) = Ok (Fin Hs)
      /\ vandermeer1998 (rs / rw - 1) Hs ht h Dn50 Nod.
Proof.
  intros. pose proof (buoyant_pos rs rw) as HDe. assert (0 < buoyant rs rw) by auto.
  assert (HQ : 0 < Rpower (ht / h) 2.7) by rpos.
  set (H' := (6.2 * Rpower (ht / h) 2.7 + 2) * Rpower Nod 0.15 * buoyant rs rw * Dn50).
  assert (G : vandermeer1998 (rs / rw - 1) H' ht h Dn50 Nod).
  { unfold vandermeer1998. fold (buoyant rs rw). unfold H'. rfld. }
  assert (0 < H') by (unfold H'; rpos).
  exists H'. repeat split; [assumption| |assumption].
  apply (C52_functions_agree_with_relation H' ht h Dn50 Nod rs rw); assumption.
Qed.

Theorem C52_diameter_total :
  forall Hs ht h Nod rs rw,
    0 < Hs -> 0 < ht -> 0 < h -> 0 < Nod -> 0 < rw -> rw < rs ->
    exists Dn50, 0 < Dn50
      /\ value (calculate_nominal_diameter_Dn50 (Fin Hs) (Fin ht) (Fin h) (Fin Nod) (Fin rs) (Fin rw)) = Ok (Fin Dn50)
      /\ vandermeer1998 (rs / rw - 1) Hs ht h Dn50 Nod.
Proof.
  intros. pose proof (buoyant_pos rs rw) as HDe. assert (0 < buoyant rs rw) by auto.
  assert (HQ : 0 < Rpower (ht / h) 2.7) by rpos.
  set (D := Hs / ((6.2 * Rpower (ht / h) 2.7 + 2) * Rpower Nod 0.15 * buoyant rs rw)).
  assert (G : vandermeer1998 (rs / rw - 1) Hs ht h D Nod).
  { unfold vandermeer1998. fold (buoyant rs rw). unfold D. rfld. }
  assert (0 < D) by (unfold D; rpos).
  exists D. repeat split; [assumption| |assumption].
  apply (C52_functions_agree_with_relation Hs ht h D Nod rs rw); assumption.
Qed.

(** When no positive toe depth satisfies the relation, the depth function
    returns NaN, and only then. *)
Theorem C52_depth_nan_iff_no_solution :
  forall Hs h Dn50 Nod rs rw,
    0 < Hs -> 0 < h -> 0 < Dn50 -> 0 < Nod -> 0 < rw -> rw < rs ->
    (value (calculate_depth_above_toe_ht (Fin Hs) (Fin Dn50) (Fin h) (Fin Nod) (Fin rs) (Fin rw)) = Ok NaN
     <-> ~ exists ht, 0 < ht /\ vandermeer1998 (rs / rw - 1) Hs ht h Dn50 Nod).
Proof.
  intros. pose proof (buoyant_pos rs rw) as HDe. assert (0 < buoyant rs rw) by auto.
  split.
  - intros E (ht & Hp & R).
    destruct (C52_functions_agree_with_relation Hs ht h Dn50 Nod rs rw) as (_ & _ & _ & V); try assumption.
    rewrite V in E. discriminate.
  - intros N. unfold calculate_depth_above_toe_ht. rewrite Delta_fin by lra.
    assert (0 < buoyant rs rw * Dn50) by rpos.
    nfin. set (x := (Hs * Rpower Nod (-(0.15)) / (buoyant rs rw * Dn50) - 2) / 6.2).
    destruct (Rltb_spec 0 x) as [Hx|Hx].
    + exfalso. apply N. exists (Rpower x (1 / 2.7) * h). split; [rpos|].
      unfold vandermeer1998. fold (buoyant rs rw).
      replace (Rpower x (1 / 2.7) * h / h) with (Rpower x (1 / 2.7)) by (field; lra).
      rewrite Rpower_cancel; [|assumption|rfld]. unfold x.
      rewrite Rpower_Ropp. assert (0 < Rpower Nod 0.15) by rpos. rfld.
    + mval. rewrite checks. mval. reflexivity.
Qed.

(** The validity check of "Nod vs Ns" is documented for Hs/(Delta Dn50) but
    evaluates (Hs/Delta)*Dn50: it stays silent for some inputs outside the
    documented range and warns for some inside. *)
Definition nod_ns_warning (l : list warning) : Prop :=
  exists v, In (WRange "Nod vs Ns" "van der Meer (1998)" v #2%num PInf) l.

Lemma warns_checks Hs ht h D N De :
  warns (check_validity Hs ht h D N De)
  = (warns (when (provided Hs) (check "Relative toe height (h)" "van der Meer (1998)" Hs #0.01 #20))
  ++ warns (when (provided ht && provided h) (check "Relative toe height (Dn50)" "van der Meer (1998)" (ht / h) #0.4 #0.9))
  ++ warns (when (provided ht && provided D) (check "Relative toe height (Dn50)" "van der Meer (1998)" (ht / D) #3 #25))
  ++ warns (when (provided N && provided D && provided Hs && provided De) (check "Nod vs Ns" "van der Meer (1998)"
       (npow N (- #0.15) * (Hs / De * D)) #2 PInf)))%list%num.
Proof.
  unfold check_validity. rewrite !warns_bind, !value_when_check. reflexivity.
Qed.

Lemma nod_ns_warns Hs ht h D N De : 0 < De -> 0 < N ->
  nod_ns_warning (warns (check_validity (Fin Hs) (Fin ht) (Fin h) (Fin D) (Fin N) (Fin De)))
  <-> Rpower N (-(0.15)) * (Hs / De * D) < 2.
Proof.
  intros. rewrite warns_checks. unfold nod_ns_warning. cbn [provided isnan negb andb when].
  rewrite !warns_check. nfin. split.
  - intros (v & Hv). rewrite !in_app_iff in Hv.
    destruct Hv as [Hv|[Hv|[Hv|Hv]]];
      try (match type of Hv with In _ (if ?b then _ else _) => destruct b end;
           simpl in Hv; [destruct Hv as [Hv|[]]; discriminate | tauto]).
    destruct (Rltb_spec (Rpower N (-(0.15)) * (Hs / De * D)) 2); [assumption|].
    simpl in Hv. tauto.
  - intros L. exists (Fin (Rpower N (-(0.15)) * (Hs / De * D))).
    rewrite !in_app_iff. do 3 right. rewrite Rltb_true by assumption. left. reflexivity.
Qed.

Theorem C52_stability_check_refuted :
  (exists Hs ht h D N De, 0 < Hs /\ 0 < D /\ 0 < N /\ 0 < De
     /\ 2 <= Rpower N (-(0.15)) * (Hs / (De * D))
     /\ nod_ns_warning (warns (check_validity (Fin Hs) (Fin ht) (Fin h) (Fin D) (Fin N) (Fin De))))
  /\ (exists Hs ht h D N De, 0 < Hs /\ 0 < D /\ 0 < N /\ 0 < De
     /\ Rpower N (-(0.15)) * (Hs / (De * D)) < 2
     /\ ~ nod_ns_warning (warns (check_validity (Fin Hs) (Fin ht) (Fin h) (Fin D) (Fin N) (Fin De)))).
Proof.
  split.
  - exists 2, 3, 5, 0.5, 1, 1.6. repeat split; try lra.
    + rewrite Rpower_1_base. lra.
    + apply nod_ns_warns; try lra. rewrite Rpower_1_base. lra.
  - exists 6, 3, 5, 2, 1, 1.6. repeat split; try lra.
    + rewrite Rpower_1_base. lra.
    + rewrite nod_ns_warns by lra. rewrite Rpower_1_base. lra.
Qed.

Example C52_example :
  exists N, 0 < N
    /\ value (calculate_damage_Nod #3 #4 #7 #0.8 #2650 #1025)%num = Ok (Fin N)
    /\ value (calculate_depth_above_toe_ht #3 #0.8 #7 (Fin N) #2650 #1025)%num = Ok (#4)%num.
Proof.
  destruct (C52_damage_total 3 4 7 0.8 2650 1025) as (N & P & V & G); try lra.
  exists N. split; [assumption|]. split; [assumption|].
  apply (C52_functions_agree_with_relation 3 4 7 0.8 N 2650 1025); try lra. assumption.
Qed.
