(** Properties C41 and C42: cubes, Xbloc and XblocPlus. *)
From Coq Require Import Reals Lra Lia List Bool String ZArith.
From Verif.Lib Require Import Num Monad RTac NTac.
From Verif.Spec Require Import Waves Armour.
From Verif.Model Require Import CoreUtility CorePhysics Cubes Xbloc.
From Verif.Proofs Require Import Core CheckTac.
Import ListNotations.
Open Scope R_scope.

Lemma checks a b c d e : value (check_validity_range a b c d e) = Ok tt.
Proof. unfold check_validity_range. mchecks. reflexivity. Qed.

Definition cubes_Ns (s N Nod : R) : R :=
  (6.7 * (Rpower Nod 0.4 / Rpower N 0.3) + 1) * Rpower s (-(0.1)).

Lemma cubes_Ns_pos s N Nod : 0 < cubes_Ns s N Nod.
Proof. unfold cubes_Ns. rpos. Qed.
Lemma Ns_formula_fin Nod N s : 0 < Nod -> 0 < N -> 0 < s ->
  Ns_formula (Fin Nod) (Fin N) (Fin s) = Fin (cubes_Ns s N Nod).
Proof. intros. unfold Ns_formula. nfin. reflexivity. Qed.

Ltac stab := cbn [check_usage_stabilitynumber is_none b2n Nat.add Nat.ltb Nat.leb Nat.eqb]; mval; cbn [fst].

(** Every point of the published relation is reproduced by all three functions. *)
Theorem C41_double_layer_functions_agree_with_relation :
  forall Hs Tm s Dn N Nod rs rw cot,
    0 < Hs -> 0 < Tm -> 0 < Dn -> 0 < N -> 0 < Nod -> 0 < rw -> rw < rs ->
    s = 2 * PI * Hs / (9.81 * Tm ^ 2) ->
    cubes_vdm (rs / rw - 1) s Hs Dn N Nod ->
    value (calculate_nominal_diameter_Dn_vanDerMeer1988 (Fin Hs) (Fin Tm) (Fin rw) (Fin rs) (Fin N) cot (Fin Nod))
      = Ok (Fin Dn)
    /\ value (calculate_wave_height_Hs_vanDerMeer1988 (Fin Dn) (Fin s) (Fin rw) (Fin rs) (Fin N) cot (Fin Nod))
      = Ok (Fin Hs)
    /\ value (calculate_damage_Nod_vanDerMeer1988 (Fin Hs) (Fin Dn) (Fin s) (Fin rw) (Fin rs) (Fin N) cot)
      = Ok (Fin Nod).
Proof.
  intros * HHs HT HD HN HNod Hrw Hrs Es R.
  change (Hs / ((rs / rw - 1) * Dn) = cubes_Ns s N Nod) in R. fold (buoyant rs rw) in R.
  pose proof (buoyant_pos rs rw Hrw Hrs) as HDe.
  assert (Hs0 : 0 < s) by (subst s; rpos).
  pose proof (cubes_Ns_pos s N Nod) as HK.
  assert (HDD : 0 < buoyant rs rw * Dn) by rpos.
  assert (EH : Hs = cubes_Ns s N Nod * (buoyant rs rw * Dn)).
  { rewrite <- R. field. split; lra. }
  split; [|split].
  - unfold calculate_nominal_diameter_Dn_vanDerMeer1988. mval. rewrite checks. mval.
    rewrite Delta_fin by lra. unfold g_default. rewrite steepness_fin by lra.
    unfold steepness. rewrite <- Es. rewrite Ns_formula_fin by assumption. stab. nfin.
    do 2 f_equal. rewrite EH. field. split; lra.
  - unfold calculate_wave_height_Hs_vanDerMeer1988.
    rewrite Delta_fin by lra. rewrite Ns_formula_fin by assumption. stab. rewrite checks. mval. nfin.
    do 2 f_equal. rewrite EH. ring.
  - unfold calculate_damage_Nod_vanDerMeer1988.
    rewrite Delta_fin by lra. stab. rewrite checks. mval. nfin. rewrite R.
    assert (E : (cubes_Ns s N Nod / Rpower s (-(0.1)) - 1) / 6.7 * Rpower N 0.3 = Rpower Nod 0.4).
    { unfold cubes_Ns. assert (0 < Rpower s (-(0.1))) by rpos. assert (0 < Rpower N 0.3) by rpos. rfld. }
    rewrite E. nfin. rewrite Rpower_cancel by (assumption || lra). reflexivity.
Qed.

Theorem C41_diameter_total :
  forall Hs Tm N Nod rs rw, 0 < Hs -> 0 < Tm -> 0 < N -> 0 < Nod -> 0 < rw -> rw < rs ->
    exists Dn, 0 < Dn /\ cubes_vdm (rs / rw - 1) (2 * PI * Hs / (9.81 * Tm ^ 2)) Hs Dn N Nod.
Proof.
  intros. fold (buoyant rs rw). set (s := 2 * PI * Hs / (9.81 * Tm ^ 2)).
  assert (0 < buoyant rs rw) by (apply buoyant_pos; assumption).
  pose proof (cubes_Ns_pos s N Nod).
  exists (Hs / (buoyant rs rw * cubes_Ns s N Nod)). split; [rpos|].
  unfold cubes_vdm. fold (cubes_Ns s N Nod). field. repeat split; lra.
Qed.

Theorem C41_wave_height_total :
  forall Dn s N Nod rs rw, 0 < Dn -> 0 < s -> 0 < N -> 0 < Nod -> 0 < rw -> rw < rs ->
    exists Hs Tm, 0 < Hs /\ 0 < Tm /\ s = 2 * PI * Hs / (9.81 * Tm ^ 2)
      /\ cubes_vdm (rs / rw - 1) s Hs Dn N Nod.
Proof.
  intros. fold (buoyant rs rw). assert (0 < buoyant rs rw) by (apply buoyant_pos; assumption).
  pose proof (cubes_Ns_pos s N Nod).
  set (Hs := cubes_Ns s N Nod * (buoyant rs rw * Dn)). assert (0 < Hs) by (unfold Hs; rpos).
  exists Hs, (sqrt (2 * PI * Hs / (9.81 * s))). repeat split; [assumption|rpos| |].
  - rewrite pow2_sqrt by rpos. pose proof PI_RGT_0. rfld.
  - unfold cubes_vdm. fold (cubes_Ns s N Nod). unfold Hs. field. split; lra.
Qed.

Theorem C41_damage_total :
  forall Hs s Dn N rs rw, 0 < Hs -> 0 < s -> 0 < Dn -> 0 < N -> 0 < rw -> rw < rs ->
    1 < Hs / ((rs / rw - 1) * Dn) * Rpower s 0.1 ->
    exists Nod, 0 < Nod /\ cubes_vdm (rs / rw - 1) s Hs Dn N Nod.
Proof.
  intros * HHs Hs0 HD HN Hrw Hrs L. fold (buoyant rs rw) in *.
  assert (0 < buoyant rs rw) by (apply buoyant_pos; assumption).
  set (q := (Hs / (buoyant rs rw * Dn) * Rpower s 0.1 - 1) / 6.7 * Rpower N 0.3).
  assert (0 < Rpower N 0.3) by rpos.
  assert (0 < q) by (unfold q; apply Rmult_lt_0_compat; [apply Rdiv_lt_0_compat; lra|assumption]).
  exists (Rpower q 2.5). split; [rpos|].
  unfold cubes_vdm. rewrite Rpower_cancel by (assumption || lra).
  unfold q. rewrite Rpower_Ropp. assert (0 < Rpower s 0.1) by rpos. rfld.
Qed.

(** The validity message expects the one slope 1:1.5 exactly. *)
Theorem C41_only_slope_1_5_is_silent :
  forall Hs Tm rs N cot, provided cot = true ->
    (forall w, In w (warns (check_validity_range Hs Tm rs N cot)) ->
       match w with WRange v _ _ _ _ => v <> "Cotangent of outer structure slope cot_alpha"%string | _ => True end)
    <-> cot = Fin 1.5.
Proof.
  intros * P. unfold check_validity_range. rewrite P. cbn [when].
  repeat (rewrite warns_bind, ?value_when_check, ?value_check).
  split.
  - intros Q. destruct (nlt cot #1.5%num || ngt cot #1.5%num)%bool eqn:E.
    + exfalso. specialize (Q (WRange "Cotangent of outer structure slope cot_alpha" formula cot #1.5%num #1.5%num)).
      apply Q; [|reflexivity].
      rewrite !in_app_iff. do 4 right. left. rewrite warns_check, E. left. reflexivity.
    + apply orb_false_elim in E. destruct E as (E1 & E2).
      destruct cot as [c| | |]; try discriminate.
      rewrite nlt_fin in E1. rewrite ngt_fin in E2.
      destruct (Rltb_spec c 1.5); [discriminate|]. destruct (Rltb_spec 1.5 c); [discriminate|].
      f_equal. lra.
  - intros -> w I. rewrite !in_app_iff in I. rewrite warns_check in I.
    rewrite nlt_fin, ngt_fin, Rltb_false in I by lra. cbn [orb] in I.
    assert (G : forall b n f v lo hi, In w (warns (when b (check n f v lo hi))) ->
              w = WRange n f v lo hi).
    { intros * J. destruct b; [|contradiction]. cbn [when] in J. rewrite warns_check in J.
      destruct (nlt v lo || ngt v hi)%bool; [|contradiction]. destruct J as [<-|[]]. reflexivity. }
    destruct I as [I|[I|[I|[I|[I|I]]]]]; try contradiction; apply G in I; subst w; discriminate.
Qed.

Example C41_example :
  exists Dn, 0 < Dn /\
   (value (calculate_nominal_diameter_Dn_vanDerMeer1988 #5 #9 #1025 #2400 #1000 #1.5 #0.5) = Ok (Fin Dn))%num.
Proof.
  destruct (C41_diameter_total 5 9 1000 0.5 2400 1025) as (Dn & HD & R); try lra.
  exists Dn. split; [assumption|].
  eapply C41_double_layer_functions_agree_with_relation; try lra; [reflexivity|exact R].
Qed.

(** ** Single-layer cubes *)
Lemma fixed_mass_fin Hs rw rs Ns : 0 < Hs -> 0 < rw -> rw < rs -> 0 < Ns ->
  value (calculate_unit_mass_M_start_of_damage (Fin Hs) (Fin rw) (Fin rs) (Fin Ns))
  = Ok (Fin (rs * (Hs / (Ns * (rs / rw - 1))) ^ 3)).
Proof.
  intros. unfold calculate_unit_mass_M_start_of_damage. rewrite Delta_fin by lra.
  assert (0 < buoyant rs rw) by (apply buoyant_pos; assumption).
  stab. nfin. rewrite M50_fin. do 2 f_equal. unfold mass_of. do 2 f_equal. fold (buoyant rs rw).
  field. split; lra.
Qed.

Theorem C41_single_layer_inverse :
  forall Hs rw rs Ns, 0 < Hs -> 0 < rw -> rw < rs -> 0 < Ns ->
    exists m, 0 < m /\ fixed_Ns rs rw Ns 1 Hs m
      /\ value (calculate_unit_mass_M_start_of_damage (Fin Hs) (Fin rw) (Fin rs) (Fin Ns)) = Ok (Fin m)
      /\ value (calculate_significant_wave_height_Hs_start_of_damage (Fin m) (Fin rw) (Fin rs) (Fin Ns)) = Ok (Fin Hs)
      /\ value (calculate_unit_mass_M_failure (Fin Hs) (Fin rw) (Fin rs) (Fin Ns)) = Ok (Fin m)
      /\ value (calculate_significant_wave_height_Hs_failure (Fin m) (Fin rw) (Fin rs) (Fin Ns)) = Ok (Fin Hs).
Proof.
  intros. set (m := rs * (Hs / (Ns * (rs / rw - 1))) ^ 3).
  assert (0 < buoyant rs rw) by (apply buoyant_pos; assumption). 
  assert (HDn : 0 < Hs / (Ns * (rs / rw - 1))) by (fold (buoyant rs rw); rpos).
  assert (Hm : 0 < m) by (unfold m; rpos).
  assert (V1 : value (calculate_unit_mass_M_start_of_damage (Fin Hs) (Fin rw) (Fin rs) (Fin Ns)) = Ok (Fin m))
    by (apply fixed_mass_fin; assumption).
  assert (V2 : value (calculate_significant_wave_height_Hs_start_of_damage (Fin m) (Fin rw) (Fin rs) (Fin Ns)) = Ok (Fin Hs)).
  { unfold calculate_significant_wave_height_Hs_start_of_damage. rewrite Delta_fin by lra.
    rewrite Dn50_fin by (assumption || lra). stab. nfin. do 2 f_equal.
    unfold m. fold (mass_of rs (Hs / (Ns * (rs / rw - 1)))). rewrite cube_root_mass by (assumption || lra).
    fold (buoyant rs rw). field. split; lra. }
  exists m. repeat split; try assumption. unfold m. unfold fixed_Ns. ring.
Qed.

(** Protection against the start of damage (Ns = 2.9) needs a heavier cube
    than protection against failure (Ns = 3.5). *)
Theorem C41_start_of_damage_needs_more :
  forall Hs rw rs, 0 < Hs -> 0 < rw -> rw < rs ->
    exists m_start m_fail,
      value (calculate_unit_mass_M_start_of_damage (Fin Hs) (Fin rw) (Fin rs) Ns_start_default) = Ok (Fin m_start)
      /\ value (calculate_unit_mass_M_failure (Fin Hs) (Fin rw) (Fin rs) Ns_failure_default) = Ok (Fin m_fail)
      /\ 0 < m_fail < m_start.
Proof.
  intros. unfold calculate_unit_mass_M_failure, Ns_start_default, Ns_failure_default.
  rewrite !fixed_mass_fin by (assumption || lra). do 2 eexists. split; [reflexivity|]. split; [reflexivity|].
  fold (buoyant rs rw). assert (0 < buoyant rs rw) by (apply buoyant_pos; assumption).
  split; [rpos|].
  apply Rmult_lt_compat_l; [lra|].
  assert (0 < Hs / (3.5 * buoyant rs rw)) by rpos.
  assert (Hs / (3.5 * buoyant rs rw) < Hs / (2.9 * buoyant rs rw)).
  { apply Rmult_lt_compat_l; [assumption|]. apply Rinv_lt_contravar; [rpos|lra]. }
  rewrite <- !Rpower_3 by lra. apply Rpower_lt_base; lra.
Qed.

(** ** Xbloc and XblocPlus *)
Lemma unit_inverse Ns Hs rw rs f : 0 < Ns -> 0 < Hs -> 0 < rw -> rw < rs -> 0 < f ->
  let V := f * (Hs / (Ns * buoyant rs rw)) ^ 3 in
  0 < V /\ Rpower (V / f) (1 / 3) * Ns * buoyant rs rw = Hs.
Proof.
  intros * HN HH Hrw Hrs Hf. assert (0 < buoyant rs rw) by (apply buoyant_pos; assumption).
  assert (0 < Hs / (Ns * buoyant rs rw)) by rpos. cbv zeta. split; [rpos|].
  replace (f * (Hs / (Ns * buoyant rs rw)) ^ 3 / f) with ((Hs / (Ns * buoyant rs rw)) ^ 3) by (field; repeat split; lra).
  rewrite <- Rpower_3, Rpower_cancel by (assumption || lra). field. split; lra.
Qed.

Definition sizing_agrees (Ns : R) (Hs_V Hs_M V M : num -> num -> num -> num -> num) : Prop :=
  forall Hs rw rs f, 0 < Hs -> 0 < rw -> rw < rs -> 0 < f ->
    exists v m, 0 < v /\ m = v * rs /\ fixed_Ns rs rw Ns f Hs m
      /\ V (Fin Hs) (Fin rw) (Fin rs) (Fin f) = Fin v
      /\ M (Fin Hs) (Fin rw) (Fin rs) (Fin f) = Fin m
      /\ Hs_V (Fin v) (Fin rw) (Fin rs) (Fin f) = Fin Hs
      /\ Hs_M (Fin m) (Fin rw) (Fin rs) (Fin f) = Fin Hs.

Theorem C42_xbloc_sizing :
  sizing_agrees 2.77 xbloc_wave_height_Hs_from_V xbloc_wave_height_Hs_from_M xbloc_unit_volume_V xbloc_unit_mass_M.
Proof.
  intros Hs rw rs f HH Hrw Hrs Hf.
  assert (HDe : 0 < buoyant rs rw) by (apply buoyant_pos; assumption).
  destruct (unit_inverse 2.77 Hs rw rs f) as (HV & E); try lra.
  set (v := f * (Hs / (2.77 * buoyant rs rw)) ^ 3) in *.
  exists v, (v * rs). 
  assert (EV : xbloc_unit_volume_V (Fin Hs) (Fin rw) (Fin rs) (Fin f) = Fin v).
  { unfold xbloc_unit_volume_V. rewrite Delta_fin by lra. nfin. reflexivity. }
  assert (EH : xbloc_wave_height_Hs_from_V (Fin v) (Fin rw) (Fin rs) (Fin f) = Fin Hs).
  { unfold xbloc_wave_height_Hs_from_V. rewrite Delta_fin by lra. assert (0 < v / f) by rpos.
    nfin. rewrite E. reflexivity. }
  repeat split; try assumption.
  - unfold fixed_Ns, v. fold (buoyant rs rw). ring.
  - unfold xbloc_unit_mass_M. rewrite EV. nfin. reflexivity.
  - unfold xbloc_wave_height_Hs_from_M. nfin. replace (v * rs / rs) with v by (field; lra). assumption.
Qed.

Theorem C42_xblocplus_sizing :
  sizing_agrees 2.5 xblocplus_wave_height_Hs_from_V xblocplus_wave_height_Hs_from_M
    xblocplus_unit_volume_V xblocplus_unit_mass_M.
Proof.
  intros Hs rw rs f HH Hrw Hrs Hf.
  assert (HDe : 0 < buoyant rs rw) by (apply buoyant_pos; assumption).
  destruct (unit_inverse 2.5 Hs rw rs f) as (HV & E); try lra.
  set (v := f * (Hs / (2.5 * buoyant rs rw)) ^ 3) in *.
  exists v, (v * rs).
  assert (EV : xblocplus_unit_volume_V (Fin Hs) (Fin rw) (Fin rs) (Fin f) = Fin v).
  { unfold xblocplus_unit_volume_V. rewrite Delta_fin by lra. nfin. reflexivity. }
  assert (EH : xblocplus_wave_height_Hs_from_V (Fin v) (Fin rw) (Fin rs) (Fin f) = Fin Hs).
  { unfold xblocplus_wave_height_Hs_from_V. rewrite Delta_fin by lra. assert (0 < v / f) by rpos.
    nfin. rewrite E. reflexivity. }
  repeat split; try assumption.
  - unfold fixed_Ns, v. fold (buoyant rs rw). ring.
  - unfold xblocplus_unit_mass_M. rewrite EV. nfin. reflexivity.
  - unfold xblocplus_wave_height_Hs_from_M. nfin. replace (v * rs / rs) with v by (field; lra). assumption.
Qed.

(** Factors: at least 1 and monotone. *)
Definition factor_between (F : num -> num) (lo hi : R) : Prop :=
  forall x, exists f, F x = Fin f /\ lo <= f <= hi.
Definition factor_decreasing (F : num -> num) : Prop :=
  forall x y, x <= y -> exists f f', F (Fin x) = Fin f /\ F (Fin y) = Fin f' /\ f' <= f.
Definition factor_increasing (F : num -> num) : Prop :=
  forall x y, x <= y -> exists f f', F (Fin x) = Fin f /\ F (Fin y) = Fin f' /\ f <= f'.

Ltac ifs := repeat match goal with |- context [if ?b then _ else _] => destruct b end;
  eexists; (split; [reflexivity|lra]).
Ltac mono := intros x y L; nfin; unfold ngt; rewrite ?nle_fin, ?nlt_fin; cases;
  do 2 eexists; (split; [reflexivity|split; [reflexivity|lra]]).

Theorem C42_factors_at_least_one :
  factor_between xbloc_factor_cotalpha_seabed 1 2
  /\ factor_between xbloc_factor_percslope_seabed 1 2
  /\ factor_between xbloc_factor_relative_freeboard 1 2
  /\ factor_between xbloc_factor_rel_depth 1 2
  /\ factor_between xbloc_factor_structure_slope 1 1.5
  /\ factor_between xblocplus_factor_cotalpha_seabed 1 2
  /\ factor_between xblocplus_factor_percslope_seabed 1 2
  /\ factor_between xblocplus_factor_relative_freeboard 1 1.5
  /\ (forall b, exists f, xbloc_factor_design_event_frequency b = Fin f /\ 1 <= f <= 1.25)
  /\ (forall b c, exists f, xbloc_factor_core_permeability b c = Fin f /\ 1 <= f <= 2)
  /\ (forall b c, exists f, xblocplus_factor_core_permeability b c = Fin f /\ 1 <= f <= 1.5).
Proof.
  unfold factor_between; repeat match goal with |- _ /\ _ => split end; intros;
    unfold xbloc_factor_percslope_seabed, xblocplus_factor_percslope_seabed, xbloc_factor_cotalpha_seabed,
      xblocplus_factor_cotalpha_seabed, xbloc_factor_relative_freeboard, xblocplus_factor_relative_freeboard,
      xbloc_factor_rel_depth, xbloc_factor_structure_slope, xbloc_factor_design_event_frequency,
      xbloc_factor_core_permeability, xblocplus_factor_core_permeability; cbv zeta; ifs.
Qed.

Theorem C42_factors_monotone :
  factor_decreasing xbloc_factor_cotalpha_seabed
  /\ factor_decreasing xbloc_factor_relative_freeboard
  /\ factor_increasing xbloc_factor_rel_depth
  /\ factor_decreasing xblocplus_factor_cotalpha_seabed
  /\ factor_decreasing xblocplus_factor_relative_freeboard.
Proof.
  repeat match goal with |- _ /\ _ => split end; unfold factor_decreasing, factor_increasing, xbloc_factor_cotalpha_seabed,
      xblocplus_factor_cotalpha_seabed, xbloc_factor_relative_freeboard, xblocplus_factor_relative_freeboard,
      xbloc_factor_rel_depth; cbv zeta; mono.
Qed.

(** Steeper seabed, given in percent, never lowers the factor. *)
Theorem C42_percentage_factor_monotone :
  forall p p', 0 < p -> p <= p' ->
    exists f f', xbloc_factor_percslope_seabed (Fin p) = Fin f
      /\ xbloc_factor_percslope_seabed (Fin p') = Fin f' /\ f <= f'
      /\ xblocplus_factor_percslope_seabed (Fin p) = Fin f
      /\ xblocplus_factor_percslope_seabed (Fin p') = Fin f'.
Proof.
  intros p p' Hp L. unfold xbloc_factor_percslope_seabed, xblocplus_factor_percslope_seabed. nfin.
  destruct C42_factors_monotone as (A & _).
  assert (L' : 100 / p' <= 100 / p).
  { apply Rmult_le_compat_l; [lra|]. apply Rinv_le_contravar; lra. }
  destruct (A _ _ L') as (f' & f & E' & E & Lf). exists f, f'. auto.
Qed.

(** The step functions themselves: the table of the Xbloc guidelines. *)
Theorem C42_seabed_steps :
  forall c,
    (30 < c -> xbloc_factor_cotalpha_seabed (Fin c) = Fin 1)
    /\ (20 < c <= 30 -> xbloc_factor_cotalpha_seabed (Fin c) = Fin 1.1)
    /\ (15 < c <= 20 -> xbloc_factor_cotalpha_seabed (Fin c) = Fin 1.25)
    /\ (10 < c <= 15 -> xbloc_factor_cotalpha_seabed (Fin c) = Fin 1.5)
    /\ (c <= 10 -> xbloc_factor_cotalpha_seabed (Fin c) = Fin 2)
    /\ xblocplus_factor_cotalpha_seabed (Fin c) = xbloc_factor_cotalpha_seabed (Fin c).
Proof.
  intros c. unfold xbloc_factor_cotalpha_seabed, xblocplus_factor_cotalpha_seabed.
  nfin. repeat split; intros; cases; reflexivity.
Qed.

Theorem C42_other_factor_steps :
  (forall x, (x < 0.5 -> xbloc_factor_relative_freeboard (Fin x) = Fin 2 /\ xblocplus_factor_relative_freeboard (Fin x) = Fin 1.5)
     /\ (0.5 <= x < 1 -> xbloc_factor_relative_freeboard (Fin x) = Fin 1.5 /\ xblocplus_factor_relative_freeboard (Fin x) = Fin 1.25)
     /\ (1 <= x -> xbloc_factor_relative_freeboard (Fin x) = Fin 1 /\ xblocplus_factor_relative_freeboard (Fin x) = Fin 1)
     /\ (x <= 2.5 -> xbloc_factor_rel_depth (Fin x) = Fin 1)
     /\ (2.5 < x <= 3.5 -> xbloc_factor_rel_depth (Fin x) = Fin 1.5)
     /\ (3.5 < x -> xbloc_factor_rel_depth (Fin x) = Fin 2))
  /\ xbloc_factor_design_event_frequency true = Fin 1.25 /\ xbloc_factor_design_event_frequency false = Fin 1
  /\ (forall low, xbloc_factor_core_permeability low true = Fin 2 /\ xblocplus_factor_core_permeability low true = Fin 1.5)
  /\ xbloc_factor_core_permeability true false = Fin 1.5 /\ xblocplus_factor_core_permeability true false = Fin 1.25
  /\ xbloc_factor_core_permeability false false = Fin 1 /\ xblocplus_factor_core_permeability false false = Fin 1.
Proof.
  split.
  - intros x. unfold xbloc_factor_relative_freeboard, xblocplus_factor_relative_freeboard, xbloc_factor_rel_depth. nfin.
    repeat split; intros; cases; reflexivity.
  - repeat split; intros; reflexivity || (destruct low; reflexivity).
Qed.

(** The structure-slope factor treats the cotangent as a tangent: it is 1.25
    for every slope flatter than 3:2, the reference slope 1:1.33 included, and
    is not monotone. *)
Theorem C42_structure_slope_factor :
  forall c, (2 / 3 < c -> xbloc_factor_structure_slope (Fin c) = Fin 1.25)
    /\ (1 / 2 < c <= 2 / 3 -> xbloc_factor_structure_slope (Fin c) = Fin 1.5)
    /\ (c <= 1 / 2 -> xbloc_factor_structure_slope (Fin c) = Fin 1).
Proof.
  intros. unfold xbloc_factor_structure_slope. nfin. repeat split; intros; cases; reflexivity.
Qed.
Theorem C42_structure_slope_monotone_refuted :
  exists a b c fa fb fc, a < b /\ b < c
    /\ xbloc_factor_structure_slope (Fin a) = Fin fa
    /\ xbloc_factor_structure_slope (Fin b) = Fin fb
    /\ xbloc_factor_structure_slope (Fin c) = Fin fc
    /\ fa < fb /\ fc < fb.
Proof.
  exists 0.5, 0.6, 1, 1, 1.5, 1.25.
  destruct (C42_structure_slope_factor 0.5) as (_ & _ & ->); [|lra].
  destruct (C42_structure_slope_factor 0.6) as (_ & -> & _); [|lra].
  destruct (C42_structure_slope_factor 1) as (-> & _ & _); [|lra].
  repeat split; lra.
Qed.
Theorem C42_reference_slope_uncorrected_refuted :
  exists f, xbloc_factor_structure_slope (Fin 1.33) = Fin f /\ f <> 1.
Proof.
  destruct (C42_structure_slope_factor 1.33) as (-> & _ & _); [|lra].
  exists 1.25. split; [reflexivity|lra].
Qed.

Example C42_example :
  exists v m, (xbloc_unit_volume_V #5 #1025 #2400 #1.5 = Fin v /\ xbloc_unit_mass_M #5 #1025 #2400 #1.5 = Fin m
   /\ xbloc_wave_height_Hs_from_M (Fin m) #1025 #2400 #1.5 = #5)%num.
Proof.
  destruct (C42_xbloc_sizing 5 1025 2400 1.5) as (v & m & _ & _ & _ & A & B & _ & C); try lra.
  exists v, m. auto.
Qed.
