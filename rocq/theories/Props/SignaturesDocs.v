(** The documentation of the parameters: their order, and which are missing or do not exist. *)
From Coq Require Import String List Bool QArith.
From Verif.Model Require Import Calling Signatures.
From Verif.Spec Require Import Calling DocumentedNames.
From Verif.Proofs Require Import Calling.
Import ListNotations.
Open Scope string_scope.

(** * C82 *)
Definition named (n : string) (l : list string) : bool := existsb (String.eqb n) l.

(** Documented, but not a parameter. *)
Definition no_parameter : list (string * string * string) := [
  ("core_utility.py", "check_variable_validity_range", "value");
  ("hydraulic/wave_overtopping/vangent2025.py", "calculate_influence_wind_gamma_w", "hc");
  ("hydraulic/wave_runup/taw2002.py", "check_validity_range", "gamma_v");
  ("structural/stability_concrete_armour/cubes_double_layer_vandermeer1988.py", "calculate_damage_Nod_vanDerMeer1988", "Nod");
  ("structural/stability_toe_berm/gerding1993.py", "calculate_nominal_diameter_Dn50", "g");
  ("structural/stability_toe_berm/gerding1993.py", "calculate_wave_height_Hs", "g");
  ("structural/stability_toe_berm/gerding1993.py", "calculate_depth_above_toe_ht", "g");
  ("structural/stability_toe_berm/takahashi1990_caisson.py", "calculate_nominal_diameter_Dn50", "ht");
  ("structural/stability_toe_berm/takahashi1990_caisson.py", "calculate_significant_wave_height_Hs", "ht");
  ("structural/stability_toe_berm/takahashi1990_caisson.py", "calculate_stability_number_Ns", "Tmm10");
  ("structural/stability_toe_berm/takahashi1990_caisson.py", "calculate_stability_number_Ns", "ht");
  ("structural/stability_toe_berm/vandermeer1998.py", "calculate_nominal_diameter_Dn50", "g");
  ("structural/stability_toe_berm/vandermeer1998.py", "calculate_wave_height_Hs", "g");
  ("structural/stability_toe_berm/vandermeer1998.py", "calculate_depth_above_toe_ht", "g")].

(** A parameter, but not described where the others are. *)
Definition not_described : list (string * string * string) := [
  ("core_utility.py", "check_variable_validity_range", "values");
  ("hydraulic/wave_overtopping/vangent2025.py", "calculate_influence_wind_gamma_w", "Rc");
  ("hydraulic/wave_overtopping/vangent2025.py", "calculate_influence_wind_gamma_w", "Ac");
  ("hydraulic/wave_overtopping/vangent2025.py", "calculate_influence_wind_gamma_w", "c_w1");
  ("hydraulic/wave_overtopping/vangent2025.py", "calculate_influence_wind_gamma_w", "c_w2");
  ("hydraulic/wave_transmission/dangremond1996.py", "calculate_wave_transmission_Kt_permeable", "do_validity_check");
  ("structural/forces_caisson/goda1985.py", "calculate_forces_and_reactions", "rho_fill_above_SWL");
  ("structural/forces_caisson/goda1985.py", "calculate_forces_and_reactions", "rho_fill_below_SWL");
  ("structural/forces_caisson/goda1985.py", "calculate_forces_and_reactions", "offshore_wave_steepness");
  ("structural/forces_caisson/goda1985.py", "calculate_forces_and_reactions", "muf");
  ("structural/forces_caisson/goda1985.py", "calculate_forces_and_reactions", "tup_over_Bup");
  ("structural/forces_caisson/goda1985.py", "calculate_pressures_and_forces", "offshore_wave_steepness");
  ("structural/stability_concrete_armour/cubes_double_layer_vandermeer1988.py", "calculate_damage_Nod_vanDerMeer1988", "Hs");
  ("structural/stability_rock_armour/hudson1959.py", "calculate_median_rock_mass_M50", "rock_type");
  ("structural/stability_rock_armour/hudson1959.py", "calculate_significant_wave_height_Hs", "rock_type");
  ("structural/stability_toe_berm/takahashi1990_caisson.py", "calculate_nominal_diameter_Dn50", "hacc");
  ("structural/stability_toe_berm/takahashi1990_caisson.py", "calculate_nominal_diameter_Dn50", "beta");
  ("structural/stability_toe_berm/takahashi1990_caisson.py", "calculate_nominal_diameter_Dn50", "g");
  ("structural/stability_toe_berm/takahashi1990_caisson.py", "calculate_significant_wave_height_Hs", "hacc");
  ("structural/stability_toe_berm/takahashi1990_caisson.py", "calculate_significant_wave_height_Hs", "beta");
  ("structural/stability_toe_berm/takahashi1990_caisson.py", "calculate_significant_wave_height_Hs", "g");
  ("structural/stability_toe_berm/takahashi1990_caisson.py", "calculate_significant_depth_above_toe_hacc", "beta");
  ("structural/stability_toe_berm/takahashi1990_caisson.py", "calculate_significant_depth_above_toe_hacc", "g");
  ("structural/stability_toe_berm/takahashi1990_caisson.py", "calculate_stability_number_Ns", "Tp");
  ("structural/stability_toe_berm/takahashi1990_caisson.py", "calculate_stability_number_Ns", "hacc");
  ("structural/stability_toe_berm/takahashi1990_caisson.py", "calculate_stability_number_Ns", "beta")].

Definition at_ (l : list (string * string * string)) (f g n : string) : bool :=
  existsb (fun u => String.eqb f (fst (fst u)) && String.eqb g (snd (fst u)) && String.eqb n (snd u)) l.
Lemma at_in l f g n : at_ l f g n = true <-> In (f, g, n) l.
Proof.
  unfold at_. rewrite existsb_exists. split.
  - intros ([[f' g'] n'] & U & E). cbn in E. rewrite !andb_true_iff, !String.eqb_eq in E. destruct E as [[-> ->] ->]. exact U.
  - intros U. exists (f, g, n). split; [exact U|]. cbn. rewrite !String.eqb_refl. reflexivity.
Qed.

(** For every function with described parameters: *)
Definition described (check : string -> string -> list parameter -> list string -> bool) : bool :=
  forallb (fun f => forallb (fun g =>
    match signature_of (fst f) (fst g) with Some ps => check (fst f) (fst g) ps (snd g) | None => false end) (snd f)) documented_names.
Lemma described_all check : described check = true -> forall file docs name ns, In (file, docs) documented_names -> In (name, ns) docs ->
  exists ps, signature_of file name = Some ps /\ check file name ps ns = true.
Proof.
  intros A file docs name ns I J. unfold described in A. rewrite forallb_forall in A. specialize (A _ I).
  rewrite forallb_forall in A. specialize (A _ J). cbn [fst snd] in A. destruct (signature_of file name) as [ps|]; [|discriminate].
  exists ps. split; [reflexivity|exact A].
Qed.

(** Every documented function exists, and its parameters are documented in the
    order of the signature: of two that stand in both, the first in one is the first in the other. *)
Theorem C82_documented_order : forall file docs name ns, In (file, docs) documented_names -> In (name, ns) docs ->
  exists ps, signature_of file name = Some ps
    /\ filter (fun n => named n (map fst ps)) ns = filter (fun n => named n ns) (map fst ps).
Proof.
  intros file docs name ns I J.
  assert (A : described (fun _ _ ps ns => if list_eq_dec string_dec (filter (fun n => named n (map fst ps)) ns) (filter (fun n => named n ns) (map fst ps)) then true else false) = true)
    by (vm_compute; reflexivity).
  destruct (described_all _ A _ _ _ _ I J) as (ps & E & C). exists ps. split; [exact E|].
  destruct (list_eq_dec _ _ _); [assumption|discriminate].
Qed.

(** The documented names that are no parameters, and the parameters that are not documented. *)
Theorem C82_documented_names : forall file docs name ns, In (file, docs) documented_names -> In (name, ns) docs ->
  exists ps, signature_of file name = Some ps
    /\ (forall n, In n ns -> In n (map fst ps) \/ In (file, name, n) no_parameter)
    /\ (forall n, In n (map fst ps) -> In n ns \/ In (file, name, n) not_described).
Proof.
  intros file docs name ns I J.
  assert (A : described (fun f g ps ns => forallb (fun n => named n (map fst ps) || at_ no_parameter f g n) ns
              && forallb (fun n => named n ns || at_ not_described f g n) (map fst ps)) = true) by (vm_compute; reflexivity).
  destruct (described_all _ A _ _ _ _ I J) as (ps & E & C). exists ps. split; [exact E|].
  apply andb_true_iff in C. destruct C as [C1 C2]. rewrite forallb_forall in C1, C2.
  assert (N : forall n l, named n l = true -> In n l).
  { intros n l H. apply existsb_exists in H. destruct H as (m & H & Em). apply String.eqb_eq in Em. subst. exact H. }
  split; intros n Hn.
  - specialize (C1 n Hn). apply orb_true_iff in C1. destruct C1 as [C1|C1]; [left; apply N; exact C1|right; apply at_in; exact C1].
  - specialize (C2 n Hn). apply orb_true_iff in C2. destruct C2 as [C2|C2]; [left; apply N; exact C2|right; apply at_in; exact C2].
Qed.

(** Whoever calls a function by a documented name that is no parameter is refused. *)
Theorem C82_documented_names_refuted : forall file name n, In (file, name, n) no_parameter ->
  exists docs ns ps, In (file, docs) documented_names /\ In (name, ns) docs /\ In n ns /\ signature_of file name = Some ps
    /\ forall V (meaning : literal -> V) positional keywords, In n (map fst keywords) -> bind_arguments V meaning ps positional keywords = None.
Proof.
  intros file name n I.
  assert (A : forallb (fun u => match lookup (fst (fst u)) documented_names with Some docs =>
               match lookup (snd (fst u)) docs with Some ns => named (snd u) ns && 
                 match signature_of (fst (fst u)) (snd (fst u)) with Some ps => negb (mem (snd u) ps) | None => false end
               | None => false end | None => false end) no_parameter = true) by (vm_compute; reflexivity).
  rewrite forallb_forall in A. specialize (A _ I). cbn [fst snd] in A.
  destruct (lookup file documented_names) as [docs|] eqn:E1; [|discriminate]. destruct (lookup name docs) as [ns|] eqn:E2; [|discriminate].
  apply andb_true_iff in A. destruct A as [A1 A2]. destruct (signature_of file name) as [ps|] eqn:E3; [|discriminate].
  exists docs, ns, ps. split; [apply lookup_in; exact E1|]. split; [apply lookup_in; exact E2|]. split.
  { apply existsb_exists in A1. destruct A1 as (m & H & Em). apply String.eqb_eq in Em. subst. exact H. }
  split; [reflexivity|]. intros V meaning positional keywords K. unfold bind_arguments.
  destruct (forallb (fun k => mem (fst k) ps) keywords) eqn:F; [|reflexivity]. exfalso.
  apply in_map_iff in K. destruct K as (k & Ek & K). rewrite forallb_forall in F. specialize (F k K). rewrite Ek in F. rewrite F in A2. discriminate.
Qed.

Example C82_documented_example : forall V (meaning : literal -> V) v ps,
  signature_of "structural/stability_toe_berm/gerding1993.py" "calculate_nominal_diameter_Dn50" = Some ps ->
  bind_arguments V meaning ps [v; v; v; v; v; v] [("g", v)] = None
  /\ bind_arguments V meaning ps [v; v; v; v; v; v] [] = Some [v; v; v; v; v; v].
Proof. intros V meaning v ps E. vm_compute in E. injection E as <-. split; reflexivity. Qed.
