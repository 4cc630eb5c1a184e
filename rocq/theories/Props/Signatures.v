(** Property C82: how calls are bound to parameters, and what is used for arguments that are left out. *)
From Coq Require Import Reals Lra String List Bool Arith Lia QArith Qreals.
From Verif.Lib Require Import Num NTac.
From Verif.Spec Require Import Calling Documented Taw Taw.
From Verif.Model Require Import Calling Signatures.
From Verif.Model Require CorePhysics CrestWall2019 Cubes DAngremond1996 DeRidder2026 EtemadShahidi2021 Goda1967 Goda1985 Hudson1959 Jumelet2024 KramerBurcharth2004 OvertoppingEurotop2007 OvertoppingEurotop2018 OvertoppingTAW2002 RearVanGent2007 RearVanGentPozueta2004 RunupEurotop2018 RunupTAW2002 Scaravaglione2025 VanGent2001 VanGent2002Velocity VanGent2021Caisson VanGent2025 VanderMeer1988 VanderMeer1988Modified.
From Verif.Proofs Require Import Calling.
From Verif.Props Require RunupEurotop.
Import ListNotations.
Open Scope string_scope.

(** A call binds exactly what is stated parameter by parameter. *)
Theorem C82_bind : forall V (meaning : literal -> V) ps positional keywords vs, NoDup (map fst keywords) ->
  bind_arguments V meaning ps positional keywords = Some vs <-> call_of literal V meaning ps positional keywords vs.
Proof.
  intros V meaning ps pos kw vs N. unfold bind_arguments, call_of. rewrite <- keywords_known.
  destruct (forallb (fun k => mem (fst k) ps) kw); [rewrite fill_iff by assumption; tauto|split; [discriminate|intros (_ & C & _); discriminate]].
Qed.

(** No function defines a parameter twice, and no file a function twice. *)
Theorem C82_names_unique : NoDup (map fst signatures)
  /\ (forall file fs, In (file, fs) signatures -> NoDup (map fst fs))
  /\ (forall file fs name ps, In (file, fs) signatures -> In (name, ps) fs -> NoDup (map fst ps)).
Proof.
  assert (U : forall l, (fix u (l : list string) := match l with [] => true | x :: l => negb (existsb (String.eqb x) l) && u l end) l = true -> NoDup l).
  { induction l as [|x l IH]; intros H; [constructor|]. apply andb_true_iff in H. destruct H as [H1 H2]. constructor; [|apply IH; assumption].
    intros I. apply negb_true_iff in H1. rewrite (proj2 (existsb_exists (String.eqb x) l)) in H1; [discriminate|]. exists x. split; [assumption|apply String.eqb_refl]. }
  split; [|split].
  - apply U. vm_compute. reflexivity.
  - assert (A : forallb (fun f => (fix u (l : list string) := match l with [] => true | x :: l => negb (existsb (String.eqb x) l) && u l end) (map fst (snd f))) signatures = true) by (vm_compute; reflexivity).
    intros file fs I. rewrite forallb_forall in A. apply U. exact (A _ I).
  - assert (A : forallb (fun f => forallb (fun g => (fix u (l : list string) := match l with [] => true | x :: l => negb (existsb (String.eqb x) l) && u l end) (map fst (snd g))) (snd f)) signatures = true) by (vm_compute; reflexivity).
    intros file fs name ps I J. rewrite forallb_forall in A. specialize (A _ I). rewrite forallb_forall in A. apply U. exact (A _ J).
Qed.

Lemma lookup_signature file fs name ps : In (file, fs) signatures -> In (name, ps) fs -> signature_of file name = Some ps.
Proof.
  intros I J. destruct C82_names_unique as (U1 & U2 & _). unfold signature_of. rewrite (proj2 (lookup_iff file fs signatures U1) I). apply lookup_iff; [|assumption]. exact (U2 _ _ I).
Qed.

(** Positional or by name: the next positional argument is the keyword of the parameter at that place. *)
Theorem C82_positional_or_named : forall file fs name ps V (meaning : literal -> V) positional keywords p d v,
  In (file, fs) signatures -> In (name, ps) fs -> nth_error ps (length positional) = Some (p, d) -> ~ In p (map fst keywords) ->
  bind_arguments V meaning ps (positional ++ [v]) keywords = bind_arguments V meaning ps positional ((p, v) :: keywords).
Proof.
  intros file fs name ps V meaning pos kw p d v I J E H. unfold bind_arguments. cbn [forallb fst].
  assert (M : mem p ps = true) by (apply mem_iff; apply nth_error_In in E; change p with (fst (p, d)); apply in_map; assumption).
  rewrite M. cbn [andb]. rewrite (fill_positional V meaning ps pos kw p d v); [reflexivity| |assumption|assumption].
  exact (proj2 (proj2 C82_names_unique) _ _ _ _ I J).
Qed.

(** The order of keywords has no effect. *)
Theorem C82_keyword_order : forall V (meaning : literal -> V) ps positional keywords keywords', NoDup (map fst keywords) -> NoDup (map fst keywords') ->
  (forall k v, In (k, v) keywords <-> In (k, v) keywords') ->
  bind_arguments V meaning ps positional keywords = bind_arguments V meaning ps positional keywords'.
Proof.
  intros V meaning ps pos kw kw' N N' S.
  assert (K : forall k, In k (map fst kw) <-> In k (map fst kw')).
  { intros k. rewrite !in_map_iff. split; intros ([k' v] & E & I); exists (k', v); (split; [assumption|apply S; assumption]). }
  assert (Q : forall vs, call_of literal V meaning ps pos kw vs <-> call_of literal V meaning ps pos kw' vs).
  { intros vs. unfold call_of, receives. setoid_rewrite K. setoid_rewrite S. reflexivity. }
  destruct (bind_arguments V meaning ps pos kw) as [vs|] eqn:E.
  - apply C82_bind in E; [|assumption]. symmetry. apply C82_bind; [assumption|]. apply Q. assumption.
  - destruct (bind_arguments V meaning ps pos kw') as [vs|] eqn:E'; [|reflexivity]. apply C82_bind in E'; [|assumption]. apply Q in E'. apply C82_bind in E'; [congruence|assumption].
Qed.

(** Leaving a required argument out is an error, with every choice of the others. *)
Theorem C82_required : forall V (meaning : literal -> V) ps positional keywords p, NoDup (map fst keywords) -> NoDup (map fst ps) ->
  In (p, None) ps -> left_out literal V ps positional keywords p -> bind_arguments V meaning ps positional keywords = None.
Proof.
  intros V meaning ps pos kw p N NP I [L1 L2]. destruct (bind_arguments V meaning ps pos kw) as [vs|] eqn:E; [|reflexivity]. apply C82_bind in E; [|assumption].
  destruct E as (_ & _ & EL & R). destruct (In_nth_error _ _ I) as (i & Ei).
  assert (Hi : (i < length vs)%nat) by (rewrite EL; apply nth_error_Some; congruence).
  destruct (nth_error vs i) as [v|] eqn:Ev; [|apply nth_error_None in Ev; lia].
  destruct (R i p None v Ei Ev) as [[C _]|[[_ C]|[_ [_ (l & C & _)]]]]; [|destruct L1; change p with (fst (p, v)); apply in_map; assumption|discriminate].
  destruct L2. assert (Lt : (i < length pos)%nat) by (apply nth_error_Some; congruence).
  assert (X : nth_error (firstn (length pos) ps) i = Some (p, None)).
  { clear - Ei Lt. revert i Ei Lt. generalize (length pos) as n. induction ps as [|a ps IH]; intros n i Ei Lt; [destruct i; discriminate|]. destruct n; [lia|]. destruct i; [assumption|]. cbn in *. apply IH; [assumption|lia]. }
  apply nth_error_In in X. change p with (fst (p, @None literal)). apply in_map. assumption.
Qed.

(** The one parameter whose documentation names another value than the signature. *)
Definition misdocumented (file name p : string) : Prop :=
  file = "hydraulic/wave_overtopping/eurotop2018.py" /\ name = "calculate_influence_oblique_waves_gamma_beta" /\ p = "c_gamma_beta_smooth".

Definition agrees (file name p : string) (l : literal) : bool :=
  (String.eqb file "hydraulic/wave_overtopping/eurotop2018.py" && String.eqb name "calculate_influence_oblique_waves_gamma_beta" && String.eqb p "c_gamma_beta_smooth")
  || match default_of file name p with Some d => same d l | None => false end.

Lemma documented_agree : forallb (fun f => forallb (fun g => forallb (fun d => agrees (fst f) (fst g) (fst d) (snd d)) (snd g)) (snd f)) documented = true.
Proof. vm_compute. reflexivity. Qed.

(** Leaving out an argument is passing the value its documentation names, for every documented default of the toolbox but one,
    whatever the other arguments of the call are. *)
Theorem C82_left_out : forall file docs name ds p l fs ps V (meaning : literal -> V) positional keywords,
  In (file, docs) documented -> In (name, ds) docs -> In (p, l) ds -> ~ misdocumented file name p ->
  In (file, fs) signatures -> In (name, ps) fs -> left_out literal V ps positional keywords p ->
  bind_arguments V meaning ps positional keywords = bind_arguments V meaning ps positional ((p, meaning l) :: keywords).
Proof.
  intros file docs name ds p l fs ps V meaning pos kw D1 D2 D3 NM I J LO.
  pose proof documented_agree as A. rewrite forallb_forall in A. specialize (A _ D1). rewrite forallb_forall in A. specialize (A _ D2). rewrite forallb_forall in A. specialize (A _ D3). cbn [fst snd] in A.
  unfold agrees in A. apply orb_true_iff in A. destruct A as [A|A].
  { destruct NM. rewrite !andb_true_iff, !String.eqb_eq in A. unfold misdocumented. tauto. }
  unfold default_of in A. rewrite (lookup_signature file fs name ps I J) in A. destruct (lookup p ps) as [[d|]|] eqn:E; try discriminate. apply same_eq in A. subst d.
  apply lookup_in in E. unfold bind_arguments. cbn [forallb fst]. rewrite (proj2 (mem_iff p ps)) by (change p with (fst (p, Some l)); apply in_map; assumption). cbn [andb].
  rewrite (fill_default V meaning ps pos kw p l); [reflexivity| |assumption|assumption]. exact (proj2 (proj2 C82_names_unique) _ _ _ _ I J).
Qed.

(** The numbers the literals stand for. *)
Definition as_num (l : literal) : option num :=
  match l with
  | Number q => Some (Fin (Q2R q))
  | Power a b => Some (npow (Fin (Q2R a)) (Fin (Q2R b)))
  | Missing => Some NaN
  | Infinite => Some PInf
  | _ => None
  end.

(** The exception: the signature says 0.0033, the documentation 0.0022, and the factor for oblique waves tells them apart. *)
Theorem C82_left_out_refuted : exists d l x y beta gamma_f,
  default_of "hydraulic/wave_overtopping/eurotop2018.py" "calculate_influence_oblique_waves_gamma_beta" "c_gamma_beta_smooth" = Some d
  /\ (exists docs ds, In ("hydraulic/wave_overtopping/eurotop2018.py", docs) documented /\ In ("calculate_influence_oblique_waves_gamma_beta", ds) docs /\ In ("c_gamma_beta_smooth", l) ds)
  /\ as_num d = Some x /\ as_num l = Some y
  /\ OvertoppingEurotop2018.calculate_influence_oblique_waves_gamma_beta beta gamma_f OvertoppingEurotop2018.gamma_f_crit_default x OvertoppingEurotop2018.c_gamma_beta_rough_default OvertoppingEurotop2018.max_angle_default = #0.901
  /\ OvertoppingEurotop2018.calculate_influence_oblique_waves_gamma_beta beta gamma_f OvertoppingEurotop2018.gamma_f_crit_default y OvertoppingEurotop2018.c_gamma_beta_rough_default OvertoppingEurotop2018.max_angle_default = #0.934.
Proof.
  exists (Number (Qmake 33 10000)), (Number (Qmake 11 5000)). do 2 eexists. exists #30, #1. split; [vm_compute; reflexivity|]. split.
  { do 2 eexists. split; [|split].
    - apply lookup_in. vm_compute. reflexivity.
    - apply lookup_in. vm_compute. reflexivity.
    - apply lookup_in. vm_compute. reflexivity. }
  split; [reflexivity|]. split; [reflexivity|]. unfold OvertoppingEurotop2018.calculate_influence_oblique_waves_gamma_beta.
  change OvertoppingEurotop2018.gamma_f_crit_default with RunupEurotop2018.gamma_f_crit_default. change OvertoppingEurotop2018.c_gamma_beta_rough_default with RunupEurotop2018.c_gamma_beta_rough_default.
  change OvertoppingEurotop2018.max_angle_default with RunupEurotop2018.max_angle_default.
  rewrite !RunupEurotop.oblique18_fin. unfold eurotop_oblique, taw_oblique. destruct (Rlt_dec 0.6 1); [|lra]. rewrite Rabs_right, Rmin_left by lra.
  split; f_equal; unfold Q2R; cbn; lra.
Qed.

(** Parameters with a default that the documentation of their function does not name. *)
Definition undocumented : list (string * string * string) := [
  ("hydraulic/wave_overtopping/vangent2002_velocity.py", "_invert_for_zXp", "cu1");
  ("hydraulic/wave_overtopping/vangent2002_velocity.py", "_invert_for_zXp", "cu2");
  ("hydraulic/wave_overtopping/vangent2002_velocity.py", "_invert_for_zXp", "g");
  ("hydraulic/wave_overtopping/vangent2025.py", "calculate_influence_wind_gamma_w", "c_w1");
  ("hydraulic/wave_overtopping/vangent2025.py", "calculate_influence_wind_gamma_w", "c_w2");
  ("hydraulic/wave_runup/vangent2001.py", "_invert_for_Hs", "c0");
  ("hydraulic/wave_runup/vangent2001.py", "_invert_for_Hs", "c1");
  ("hydraulic/wave_transmission/dangremond1996.py", "calculate_wave_transmission_Kt_permeable", "do_validity_check");
  ("structural/forces_caisson/goda1985.py", "calculate_forces_and_reactions", "rho_fill_above_SWL");
  ("structural/forces_caisson/goda1985.py", "calculate_forces_and_reactions", "rho_fill_below_SWL");
  ("structural/forces_caisson/goda1985.py", "calculate_forces_and_reactions", "offshore_wave_steepness");
  ("structural/forces_caisson/goda1985.py", "calculate_forces_and_reactions", "muf");
  ("structural/forces_caisson/goda1985.py", "calculate_forces_and_reactions", "tup_over_Bup");
  ("structural/forces_caisson/goda1985.py", "calculate_forces_and_reactions", "return_dict");
  ("structural/forces_caisson/goda1985.py", "calculate_pressures_and_forces", "offshore_wave_steepness");
  ("structural/forces_caisson/goda1985.py", "calculate_pressures_and_forces", "return_dict");
  ("structural/stability_concrete_armour/accropode2_hudson1959.py", "calculate_unit_mass_M", "cot_alpha");
  ("structural/stability_concrete_armour/accropode2_hudson1959.py", "calculate_significant_wave_height_Hs", "cot_alpha");
  ("structural/stability_concrete_armour/accropode_hudson1959.py", "calculate_unit_mass_M", "cot_alpha");
  ("structural/stability_concrete_armour/accropode_hudson1959.py", "calculate_significant_wave_height_Hs", "cot_alpha");
  ("structural/stability_concrete_armour/core_loc_hudson1959.py", "calculate_unit_mass_M", "cot_alpha");
  ("structural/stability_concrete_armour/core_loc_hudson1959.py", "calculate_significant_wave_height_Hs", "cot_alpha");
  ("structural/stability_concrete_armour/cubipod_hudson1959.py", "calculate_unit_mass_M", "cot_alpha");
  ("structural/stability_concrete_armour/cubipod_hudson1959.py", "calculate_significant_wave_height_Hs", "cot_alpha");
  ("structural/stability_rock_armour/hudson1959.py", "calculate_median_rock_mass_M50", "rock_type");
  ("structural/stability_rock_armour/hudson1959.py", "calculate_significant_wave_height_Hs", "rock_type");
  ("structural/stability_rock_rear/vangentpozueta2004.py", "_invert_for_u1p", "Dn50");
  ("structural/stability_rock_rear/vangentpozueta2004.py", "_invert_for_u1p", "Delta");
  ("structural/stability_rock_rear/vangentpozueta2004.py", "_invert_for_u1p", "cs");
  ("structural/stability_toe_berm/takahashi1990_caisson.py", "calculate_nominal_diameter_Dn50", "g");
  ("structural/stability_toe_berm/takahashi1990_caisson.py", "calculate_significant_wave_height_Hs", "g");
  ("structural/stability_toe_berm/takahashi1990_caisson.py", "calculate_significant_depth_above_toe_hacc", "g")].

(** Defaults without documentation: these and no others. *)
Theorem C82_undocumented : forall file fs name ps p l, In (file, fs) signatures -> In (name, ps) fs -> In (p, Some l) ps ->
  (exists docs ds l', In (file, docs) documented /\ In (name, ds) docs /\ In (p, l') ds)
  \/ In (file, name, p) undocumented.
Proof.
  assert (A : forallb (fun f => forallb (fun g => forallb (fun x => match snd x with None => true | Some _ =>
      match lookup (fst f) documented with Some docs => match lookup (fst g) docs with Some ds => mem (fst x) ds | None => false end | None => false end
      || existsb (fun u => String.eqb (fst f) (fst (fst u)) && String.eqb (fst g) (snd (fst u)) && String.eqb (fst x) (snd u)) undocumented
    end) (snd g)) (snd f)) signatures = true) by (vm_compute; reflexivity).
  intros file fs name ps p l I J K. rewrite forallb_forall in A. specialize (A _ I). rewrite forallb_forall in A. specialize (A _ J). rewrite forallb_forall in A. specialize (A _ K). cbn [fst snd] in A.
  apply orb_true_iff in A. destruct A as [A|A].
  - left. destruct (lookup file documented) as [docs|] eqn:E1; [|discriminate]. destruct (lookup name docs) as [ds|] eqn:E2; [|discriminate]. apply mem_iff in A. apply in_map_iff in A. destruct A as ([p' l'] & E3 & E4). cbn in E3. subst p'.
    exists docs, ds, l'. split; [apply lookup_in; assumption|]. split; [apply lookup_in; assumption|assumption].
  - right. apply existsb_exists in A. destruct A as ([[f n] q] & U & E). rewrite !andb_true_iff, !String.eqb_eq in E. destruct E as [[-> ->] ->]. exact U.
Qed.

(** Functions of one file that share a parameter share its default, except where the difference is the point of the functions. *)
Definition differ_by_design : list (string * string) := [
  ("hydraulic/wave_runup/vangent2001.py", "c0"); ("hydraulic/wave_runup/vangent2001.py", "c1"); ("hydraulic/wave_transmission/dangremond1996.py", "C1");
  ("structural/forces_crestwall/vangentvanderwerf2019.py", "gamma_A"); ("structural/stability_concrete_armour/cubes_single_layer_vangent2002.py", "Ns")].

Theorem C82_shared : forall file fs name name' ps ps' p l l', In (file, fs) signatures -> In (name, ps) fs -> In (name', ps') fs ->
  name <> "check_validity_range" -> name' <> "check_validity_range" -> In (p, Some l) ps -> In (p, Some l') ps' -> ~ In (file, p) differ_by_design ->
  l = l'.
Proof.
  assert (A : forallb (fun f => forallb (fun g => String.eqb (fst g) "check_validity_range" || forallb (fun g' => String.eqb (fst g') "check_validity_range" || forallb (fun x => match snd x with None => true | Some l =>
      existsb (fun u => String.eqb (fst f) (fst u) && String.eqb (fst x) (snd u)) differ_by_design
      || match lookup (fst x) (snd g') with Some (Some l') => same l l' | _ => true end end) (snd g)) (snd f)) (snd f)) signatures = true) by (vm_compute; reflexivity).
  intros file fs name name' ps ps' p l l' I J J' N N' K K' D. rewrite forallb_forall in A. specialize (A _ I). rewrite forallb_forall in A. specialize (A _ J). cbn [fst snd] in A.
  apply orb_true_iff in A. destruct A as [A|A]; [apply String.eqb_eq in A; contradiction|]. rewrite forallb_forall in A. specialize (A _ J'). cbn [fst snd] in A.
  apply orb_true_iff in A. destruct A as [A|A]; [apply String.eqb_eq in A; contradiction|]. rewrite forallb_forall in A. specialize (A _ K). cbn [fst snd] in A.
  apply orb_true_iff in A. destruct A as [A|A].
  - destruct D. apply existsb_exists in A. destruct A as ([f q] & U & E). rewrite andb_true_iff, !String.eqb_eq in E. destruct E as [-> ->]. exact U.
  - rewrite (proj2 (lookup_iff p (Some l') ps' (proj2 (proj2 C82_names_unique) _ _ _ _ I J'))) in A by assumption. apply same_eq. assumption.
Qed.

Ltac value_of_literal :=
  first [reflexivity | match goal with |- _ = Some ?c => unfold c end; rewrite ?nneg_fin; rewrite ?ndiv_fin by lra;
  first [reflexivity | f_equal; f_equal; unfold Q2R; cbn; lra | do 3 f_equal; unfold Q2R; cbn; lra]].

(** The defaults the models of the formulas use are those of the signatures. *)
Definition used : list (num * string * list string * string) := [
  (CorePhysics.g_default, "core_physics.py", ["calculate_wave_steepness_s"; "calculate_local_wavelength"], "g");
  (CrestWall2019.default_gamma_beta, "structural/forces_crestwall/vangentvanderwerf2019.py", ["calculate_FH2p_perpendicular"; "calculate_FH2p_oblique"; "calculate_FV2p_perpendicular"; "calculate_FV2p_oblique"], "gamma_beta");
  (CrestWall2019.default_gamma_f, "structural/forces_crestwall/vangentvanderwerf2019.py", ["calculate_FH2p_perpendicular"; "calculate_FH2p_oblique"; "calculate_FV2p_perpendicular"; "calculate_FV2p_oblique"], "gamma_f");
  (CrestWall2019.default_c0, "structural/forces_crestwall/vangentvanderwerf2019.py", ["calculate_FH2p_perpendicular"; "calculate_FH2p_oblique"; "calculate_FV2p_perpendicular"; "calculate_FV2p_oblique"], "c0");
  (CrestWall2019.default_c1, "structural/forces_crestwall/vangentvanderwerf2019.py", ["calculate_FH2p_perpendicular"; "calculate_FH2p_oblique"; "calculate_FV2p_perpendicular"; "calculate_FV2p_oblique"], "c1");
  (CrestWall2019.default_cFH, "structural/forces_crestwall/vangentvanderwerf2019.py", ["calculate_FH2p_perpendicular"; "calculate_FH2p_perpendicular_from_z2p"; "calculate_FH2p_oblique"], "cFH");
  (CrestWall2019.default_cFV, "structural/forces_crestwall/vangentvanderwerf2019.py", ["calculate_FV2p_perpendicular"; "calculate_FV2p_perpendicular_from_z2p"; "calculate_FV2p_oblique"], "cFV");
  (CrestWall2019.default_cFb, "structural/forces_crestwall/vangentvanderwerf2019.py", ["calculate_FV2p_perpendicular"; "calculate_FV2p_perpendicular_from_z2p"; "calculate_FV2p_oblique"], "cFb");
  (CrestWall2019.default_rho_water, "structural/forces_crestwall/vangentvanderwerf2019.py", ["calculate_FH2p_perpendicular"; "calculate_FH2p_perpendicular_from_z2p"; "calculate_FH2p_oblique"; "calculate_FV2p_perpendicular"; "calculate_FV2p_perpendicular_from_z2p"; "calculate_FV2p_oblique"], "rho_water");
  (DeRidder2026.theta_default, "hydraulic/wave_overtopping/deridder2026.py", ["calculate_crest_freeboard_discharge_q_eq28"; "calculate_crest_freeboard_discharge_q_eq32"; "calculate_overtopping_discharge_q_eq28"; "calculate_overtopping_discharge_q_eq32"; "calculate_dimensionless_overtopping_discharge_eq28"; "calculate_dimensionless_overtopping_discharge_eq32"], "theta");
  (Goda1967.alpha_1_default, "hydraulic/wave_transmission/goda1967_caisson.py", ["calculate_wave_transmission_Kt"], "alpha_1");
  (Goda1967.beta_1_default, "hydraulic/wave_transmission/goda1967_caisson.py", ["calculate_wave_transmission_Kt"], "beta_1");
  (Goda1985.rho_fill_above_SWL_default, "structural/forces_caisson/goda1985.py", ["calculate_forces_and_reactions"], "rho_fill_above_SWL");
  (Goda1985.rho_fill_below_SWL_default, "structural/forces_caisson/goda1985.py", ["calculate_forces_and_reactions"], "rho_fill_below_SWL");
  (Goda1985.muf_default, "structural/forces_caisson/goda1985.py", ["calculate_forces_and_reactions"], "muf");
  (Goda1985.tup_over_Bup_default, "structural/forces_caisson/goda1985.py", ["calculate_forces_and_reactions"], "tup_over_Bup");
  (Hudson1959.alpha_Hs_default, "structural/stability_rock_armour/hudson1959.py", ["calculate_median_rock_mass_M50_no_damage"; "calculate_significant_wave_height_Hs_no_damage"; "calculate_median_rock_mass_M50"; "calculate_significant_wave_height_Hs"], "alpha_Hs");
  (Jumelet2024.c_pl_default, "structural/stability_rock_armour/jumelet2024.py", ["calculate_damage_number_S"; "calculate_nominal_rock_diameter_Dn50"; "calculate_significant_wave_height_Hs"], "c_pl");
  (Jumelet2024.smm10_init_default, "structural/stability_rock_armour/jumelet2024.py", ["calculate_significant_wave_height_Hs"], "smm10_init");
  (KramerBurcharth2004.Ns_init_default, "structural/stability_rock_armour/kramerburcharth2004_lowcrested.py", ["calculate_nominal_rock_diameter_Dn50"], "Ns_init");
  (KramerBurcharth2004.Rc_Dn50_init_default, "structural/stability_rock_armour/kramerburcharth2004_lowcrested.py", ["calculate_crest_freeboard_Rc"], "Rc_Dn50_init");
  (KramerBurcharth2004.tolerance_default, "structural/stability_rock_armour/kramerburcharth2004_lowcrested.py", ["calculate_nominal_rock_diameter_Dn50"; "calculate_crest_freeboard_Rc"], "tolerance");
  (OvertoppingEurotop2007.c2_default, "hydraulic/wave_overtopping/eurotop2007.py", ["calculate_overtopping_discharge_q_rubble_mound"; "calculate_dimensionless_overtopping_discharge_q_rubble_mound"; "calculate_crest_freeboard_Rc_rubble_mound"; "calculate_dimensionless_crest_freeboard_rubble_mound"], "c2");
  (OvertoppingEurotop2007.c3_default, "hydraulic/wave_overtopping/eurotop2007.py", ["calculate_overtopping_discharge_q_rubble_mound"; "calculate_dimensionless_overtopping_discharge_q_rubble_mound"; "calculate_crest_freeboard_Rc_rubble_mound"; "calculate_dimensionless_crest_freeboard_rubble_mound"], "c3");
  (OvertoppingEurotop2018.c1_default, "hydraulic/wave_overtopping/eurotop2018.py", ["calculate_overtopping_discharge_q"; "calculate_dimensionless_overtopping_discharge_q"; "calculate_crest_freeboard_Rc"; "calculate_dimensionless_crest_freeboard"], "c1");
  (OvertoppingEurotop2018.c2_default, "hydraulic/wave_overtopping/eurotop2018.py", ["calculate_overtopping_discharge_q"; "calculate_dimensionless_overtopping_discharge_q"; "q_diml_max_equation"; "calculate_crest_freeboard_Rc"; "calculate_dimensionless_crest_freeboard"; "Rc_diml_max_equation"; "calculate_overtopping_discharge_q_rubble_mound"; "calculate_dimensionless_overtopping_discharge_q_rubble_mound"; "calculate_crest_freeboard_Rc_rubble_mound"; "calculate_dimensionless_crest_freeboard_rubble_mound"], "c2");
  (OvertoppingEurotop2018.c3_default, "hydraulic/wave_overtopping/eurotop2018.py", ["calculate_overtopping_discharge_q"; "calculate_dimensionless_overtopping_discharge_q"; "q_diml_max_equation"; "calculate_crest_freeboard_Rc"; "calculate_dimensionless_crest_freeboard"; "Rc_diml_max_equation"; "calculate_overtopping_discharge_q_rubble_mound"; "calculate_dimensionless_overtopping_discharge_q_rubble_mound"; "calculate_crest_freeboard_Rc_rubble_mound"; "calculate_dimensionless_crest_freeboard_rubble_mound"], "c3");
  (OvertoppingEurotop2018.c4_default, "hydraulic/wave_overtopping/eurotop2018.py", ["calculate_overtopping_discharge_q"; "calculate_dimensionless_overtopping_discharge_q"; "calculate_crest_freeboard_Rc"; "calculate_dimensionless_crest_freeboard"], "c4");
  (OvertoppingEurotop2018.gamma_star_default, "hydraulic/wave_overtopping/eurotop2018.py", ["calculate_overtopping_discharge_q"; "calculate_dimensionless_overtopping_discharge_q"; "q_diml_max_equation"; "calculate_crest_freeboard_Rc"; "calculate_dimensionless_crest_freeboard"; "Rc_diml_max_equation"], "gamma_star");
  (OvertoppingEurotop2018.gamma_f_crit_default, "hydraulic/wave_overtopping/eurotop2018.py", ["calculate_influence_oblique_waves_gamma_beta"], "gamma_f_crit");
  (OvertoppingEurotop2018.c_gamma_beta_smooth_default, "hydraulic/wave_overtopping/eurotop2018.py", ["calculate_influence_oblique_waves_gamma_beta"], "c_gamma_beta_smooth");
  (OvertoppingEurotop2018.c_gamma_beta_rough_default, "hydraulic/wave_overtopping/eurotop2018.py", ["calculate_influence_oblique_waves_gamma_beta"], "c_gamma_beta_rough");
  (OvertoppingEurotop2018.max_angle_default, "hydraulic/wave_overtopping/eurotop2018.py", ["calculate_influence_oblique_waves_gamma_beta"], "max_angle");
  (OvertoppingTAW2002.cor3_default, "hydraulic/wave_overtopping/taw2002.py", ["q_diml_max_equation"; "Rc_diml_max_equation"], "cor3");
  (OvertoppingTAW2002.c2_default, "hydraulic/wave_overtopping/taw2002.py", ["q_diml_max_equation"; "Rc_diml_max_equation"], "c2");
  (OvertoppingTAW2002.c_gamma_beta_default, "hydraulic/wave_overtopping/taw2002.py", ["calculate_influence_oblique_waves_gamma_beta"], "c_gamma_beta");
  (OvertoppingTAW2002.max_angle_default, "hydraulic/wave_overtopping/taw2002.py", ["calculate_influence_oblique_waves_gamma_beta"], "max_angle");
  (RearVanGent2007.tolerance_default, "structural/stability_rock_rear/vangent2007.py", ["calculate_maximum_significant_wave_height_Hs"], "tolerance");
  (RearVanGentPozueta2004.cs_default, "structural/stability_rock_rear/vangentpozueta2004.py", ["calculate_damage_number_S"; "calculate_nominal_rock_diameter_Dn50"; "calculate_maximum_significant_wave_height_Hs"; "_invert_for_u1p"], "cs");
  (RunupEurotop2018.gamma_f_crit_default, "hydraulic/wave_runup/eurotop2018.py", ["calculate_influence_oblique_waves_gamma_beta"], "gamma_f_crit");
  (RunupEurotop2018.c_gamma_beta_smooth_default, "hydraulic/wave_runup/eurotop2018.py", ["calculate_influence_oblique_waves_gamma_beta"], "c_gamma_beta_smooth");
  (RunupEurotop2018.c_gamma_beta_rough_default, "hydraulic/wave_runup/eurotop2018.py", ["calculate_influence_oblique_waves_gamma_beta"], "c_gamma_beta_rough");
  (RunupEurotop2018.max_angle_default, "hydraulic/wave_runup/eurotop2018.py", ["calculate_influence_oblique_waves_gamma_beta"], "max_angle");
  (RunupEurotop2018.c1_default, "hydraulic/wave_runup/eurotop2018.py", ["calculate_wave_runup_height_z2p"; "calculate_dimensionless_wave_runup_height_z2p"; "iteration_procedure_z2p"; "iteration_procedure_gamma_b"], "c1");
  (RunupEurotop2018.c2_default, "hydraulic/wave_runup/eurotop2018.py", ["calculate_wave_runup_height_z2p"; "calculate_dimensionless_wave_runup_height_z2p"; "iteration_procedure_z2p"; "iteration_procedure_gamma_b"], "c2");
  (RunupEurotop2018.c3_default, "hydraulic/wave_runup/eurotop2018.py", ["calculate_wave_runup_height_z2p"; "calculate_dimensionless_wave_runup_height_z2p"; "iteration_procedure_z2p"; "iteration_procedure_gamma_b"], "c3");
  (RunupEurotop2018.c4_default, "hydraulic/wave_runup/eurotop2018.py", ["calculate_wave_runup_height_z2p"; "calculate_dimensionless_wave_runup_height_z2p"; "iteration_procedure_z2p"; "iteration_procedure_gamma_b"], "c4");
  (RunupEurotop2018.tolerance_default, "hydraulic/wave_runup/eurotop2018.py", ["iteration_procedure_z2p"], "tolerance");
  (RunupTAW2002.c_gamma_beta_default, "hydraulic/wave_runup/taw2002.py", ["calculate_influence_oblique_waves_gamma_beta"], "c_gamma_beta");
  (RunupTAW2002.max_angle_default, "hydraulic/wave_runup/taw2002.py", ["calculate_influence_oblique_waves_gamma_beta"], "max_angle");
  (RunupTAW2002.c1_default, "hydraulic/wave_runup/taw2002.py", ["calculate_wave_runup_height_z2p"; "calculate_dimensionless_wave_runup_height_z2p"; "iteration_procedure_z2p"; "iteration_procedure_gamma_b"], "c1");
  (RunupTAW2002.c2_default, "hydraulic/wave_runup/taw2002.py", ["calculate_wave_runup_height_z2p"; "calculate_dimensionless_wave_runup_height_z2p"; "iteration_procedure_z2p"; "iteration_procedure_gamma_b"], "c2");
  (RunupTAW2002.c3_default, "hydraulic/wave_runup/taw2002.py", ["calculate_wave_runup_height_z2p"; "calculate_dimensionless_wave_runup_height_z2p"; "iteration_procedure_z2p"; "iteration_procedure_gamma_b"], "c3");
  (RunupTAW2002.c4_default, "hydraulic/wave_runup/taw2002.py", ["calculate_wave_runup_height_z2p"; "calculate_dimensionless_wave_runup_height_z2p"; "iteration_procedure_z2p"; "iteration_procedure_gamma_b"], "c4");
  (RunupTAW2002.tolerance_default, "hydraulic/wave_runup/taw2002.py", ["iteration_procedure_z2p"], "tolerance");
  (Scaravaglione2025.c_VGnew_default, "structural/stability_rock_armour/scaravaglione2025.py", ["calculate_damage_number_S"; "calculate_nominal_rock_diameter_Dn50"; "calculate_significant_wave_height_Hm0"], "c_VGnew");
  (VanGent2002Velocity.cu1_default, "hydraulic/wave_overtopping/vangent2002_velocity.py", ["calculate_maximum_wave_overtopping_velocity_uXp"; "_invert_for_zXp"], "cu1");
  (VanGent2002Velocity.cu2_default, "hydraulic/wave_overtopping/vangent2002_velocity.py", ["calculate_maximum_wave_overtopping_velocity_uXp"; "_invert_for_zXp"], "cu2");
  (VanGent2021Caisson.c_default, "hydraulic/wave_overtopping/vangent2021_caisson.py", ["calculate_overtopping_discharge_q"; "calculate_dimensionless_overtopping_discharge_q"; "calculate_crest_freeboard_Rc"; "calculate_dimensionless_crest_freeboard"], "c");
  (VanGent2021Caisson.c_swell_default, "hydraulic/wave_overtopping/vangent2021_caisson.py", ["calculate_overtopping_discharge_q"; "calculate_dimensionless_overtopping_discharge_q"; "calculate_crest_freeboard_Rc"; "calculate_dimensionless_crest_freeboard"], "c_swell");
  (VanGent2025.tolerance_default, "hydraulic/wave_overtopping/vangent2025.py", ["calculate_dimensionless_crest_freeboard"], "tolerance");
  (VanGent2025.B_berm_default, "hydraulic/wave_overtopping/vangent2025.py", ["calculate_overtopping_discharge_q"; "calculate_dimensionless_overtopping_discharge_q"; "calculate_crest_freeboard_Rc"; "calculate_dimensionless_crest_freeboard"], "B_berm");
  (VanGent2025.db_default, "hydraulic/wave_overtopping/vangent2025.py", ["calculate_overtopping_discharge_q"; "calculate_dimensionless_overtopping_discharge_q"; "calculate_crest_freeboard_Rc"; "calculate_dimensionless_crest_freeboard"], "db");
  (VanGent2025.gamma_v_default, "hydraulic/wave_overtopping/vangent2025.py", ["calculate_overtopping_discharge_q"; "calculate_dimensionless_overtopping_discharge_q"; "calculate_crest_freeboard_Rc"; "calculate_dimensionless_crest_freeboard"], "gamma_v");
  (VanderMeer1988.c_pl_default, "structural/stability_rock_armour/vandermeer1988.py", ["calculate_damage_number_S"; "calculate_nominal_rock_diameter_Dn50"; "calculate_significant_wave_height_Hs"], "c_pl");
  (VanderMeer1988.c_s_default, "structural/stability_rock_armour/vandermeer1988.py", ["calculate_damage_number_S"; "calculate_nominal_rock_diameter_Dn50"; "calculate_significant_wave_height_Hs"], "c_s");
  (VanderMeer1988Modified.c_pl_default, "structural/stability_rock_armour/vandermeer1988_modified.py", ["calculate_damage_number_S"; "calculate_nominal_rock_diameter_Dn50"; "calculate_significant_wave_height_Hs"], "c_pl");
  (VanderMeer1988Modified.c_s_default, "structural/stability_rock_armour/vandermeer1988_modified.py", ["calculate_damage_number_S"; "calculate_nominal_rock_diameter_Dn50"; "calculate_significant_wave_height_Hs"], "c_s");
  (VanderMeer1988Modified.c_pl_default_2021, "structural/stability_rock_armour/vandermeer2021.py", ["calculate_damage_number_S"; "calculate_nominal_rock_diameter_Dn50"; "calculate_significant_wave_height_Hs"], "c_pl");
  (VanderMeer1988Modified.c_s_default_2021, "structural/stability_rock_armour/vandermeer2021.py", ["calculate_damage_number_S"; "calculate_nominal_rock_diameter_Dn50"; "calculate_significant_wave_height_Hs"], "c_s");
  (CrestWall2019.gamma_A_FH, "structural/forces_crestwall/vangentvanderwerf2019.py", ["calculate_influence_oblique_waves_horizontal_force_gamma_FH_beta"], "gamma_A");
  (CrestWall2019.gamma_A_FV, "structural/forces_crestwall/vangentvanderwerf2019.py", ["calculate_influence_oblique_waves_vertical_force_gamma_FV_beta"], "gamma_A");
  (CrestWall2019.gamma_beta_c, "structural/forces_crestwall/vangentvanderwerf2019.py", ["calculate_influence_oblique_waves_gamma_beta"], "c_beta");
  (DAngremond1996.C1_permeable, "hydraulic/wave_transmission/dangremond1996.py", ["calculate_wave_transmission_Kt_permeable"], "C1");
  (DAngremond1996.C1_impermeable, "hydraulic/wave_transmission/dangremond1996.py", ["calculate_wave_transmission_Kt_impermeable"], "C1");
  (Cubes.Ns_start_default, "structural/stability_concrete_armour/cubes_single_layer_vangent2002.py", ["calculate_unit_mass_M_start_of_damage"; "calculate_significant_wave_height_Hs_start_of_damage"], "Ns");
  (Cubes.Ns_failure_default, "structural/stability_concrete_armour/cubes_single_layer_vangent2002.py", ["calculate_unit_mass_M_failure"; "calculate_significant_wave_height_Hs_failure"], "Ns");
  (EtemadShahidi2021.c1_d, "structural/stability_toe_berm/etemadshahidi2021.py", ["calculate_damage_Nod"; "calculate_nominal_diameter_Dn50"; "calculate_significant_wave_height_Hs"], "c1");
  (EtemadShahidi2021.c2_d, "structural/stability_toe_berm/etemadshahidi2021.py", ["calculate_damage_Nod"; "calculate_nominal_diameter_Dn50"; "calculate_significant_wave_height_Hs"], "c2");
  (EtemadShahidi2021.c3_d, "structural/stability_toe_berm/etemadshahidi2021.py", ["calculate_damage_Nod"; "calculate_nominal_diameter_Dn50"; "calculate_significant_wave_height_Hs"], "c3");
  (EtemadShahidi2021.c4_d, "structural/stability_toe_berm/etemadshahidi2021.py", ["calculate_damage_Nod"; "calculate_nominal_diameter_Dn50"; "calculate_significant_wave_height_Hs"], "c4");
  (EtemadShahidi2021.c5_d, "structural/stability_toe_berm/etemadshahidi2021.py", ["calculate_damage_Nod"; "calculate_nominal_diameter_Dn50"; "calculate_significant_wave_height_Hs"], "c5");
  (EtemadShahidi2021.c6_d, "structural/stability_toe_berm/etemadshahidi2021.py", ["calculate_damage_Nod"; "calculate_nominal_diameter_Dn50"; "calculate_significant_wave_height_Hs"], "c6");
  (EtemadShahidi2021.c7_d, "structural/stability_toe_berm/etemadshahidi2021.py", ["calculate_damage_Nod"; "calculate_nominal_diameter_Dn50"; "calculate_significant_wave_height_Hs"], "c7");
  (VanGent2001.z1p_c0, "hydraulic/wave_runup/vangent2001.py", ["calculate_wave_runup_height_z1p"], "c0");
  (VanGent2001.z1p_c1, "hydraulic/wave_runup/vangent2001.py", ["calculate_wave_runup_height_z1p"], "c1");
  (VanGent2001.z2p_c0, "hydraulic/wave_runup/vangent2001.py", ["calculate_wave_runup_height_z2p"], "c0");
  (VanGent2001.z2p_c1, "hydraulic/wave_runup/vangent2001.py", ["calculate_wave_runup_height_z2p"], "c1");
  (VanGent2001.z10p_c0, "hydraulic/wave_runup/vangent2001.py", ["calculate_wave_runup_height_z10p"], "c0");
  (VanGent2001.z10p_c1, "hydraulic/wave_runup/vangent2001.py", ["calculate_wave_runup_height_z10p"], "c1");
  (VanGent2001.invert_c0, "hydraulic/wave_runup/vangent2001.py", ["_invert_for_Hs"], "c0");
  (VanGent2001.invert_c1, "hydraulic/wave_runup/vangent2001.py", ["_invert_for_Hs"], "c1")].
Theorem C82_used : forall c file names p name, In (c, file, names, p) used -> In name names ->
  exists l, default_of file name p = Some l /\ as_num l = Some c.
Proof.
  intros c file names p name I J. revert name J. unfold used in I.
  do 92 (destruct I as [I|I]; [injection I as <- <- <- <-; intros name J; repeat (destruct J as [<-|J]; [eexists; split; [vm_compute; reflexivity|]; cbn [as_num]; value_of_literal|]); destruct J|]). destruct I.
Qed.

(** Numbers of iterations and switches. *)
Theorem C82_used_other :
  default_of "structural/stability_rock_armour/kramerburcharth2004_lowcrested.py" "calculate_nominal_rock_diameter_Dn50" "max_iter" = Some (Number (Qmake (Z.of_nat KramerBurcharth2004.max_iter_default) 1))
  /\  default_of "structural/stability_rock_armour/kramerburcharth2004_lowcrested.py" "calculate_crest_freeboard_Rc" "max_iter" = Some (Number (Qmake (Z.of_nat KramerBurcharth2004.max_iter_default) 1))
  /\  default_of "structural/stability_rock_rear/vangent2007.py" "calculate_maximum_significant_wave_height_Hs" "max_iterations" = Some (Number (Qmake (Z.of_nat RearVanGent2007.max_iterations_default) 1))
  /\  default_of "hydraulic/wave_runup/eurotop2018.py" "iteration_procedure_z2p" "max_iter" = Some (Number (Qmake (Z.of_nat RunupEurotop2018.max_iter_default) 1))
  /\  default_of "hydraulic/wave_runup/taw2002.py" "iteration_procedure_z2p" "max_iter" = Some (Number (Qmake (Z.of_nat RunupTAW2002.max_iter_default) 1))
  /\  default_of "hydraulic/wave_overtopping/vangent2025.py" "calculate_dimensionless_crest_freeboard" "max_iter" = Some (Number (Qmake (Z.of_nat VanGent2025.max_iter_default) 1))
  /\  default_of "hydraulic/wave_overtopping/vangent2021_caisson.py" "calculate_overtopping_discharge_q" "short_crested_waves" = Some (Flag VanGent2021Caisson.short_crested_default)
  /\  default_of "hydraulic/wave_overtopping/vangent2021_caisson.py" "calculate_dimensionless_overtopping_discharge_q" "short_crested_waves" = Some (Flag VanGent2021Caisson.short_crested_default)
  /\  default_of "hydraulic/wave_overtopping/vangent2021_caisson.py" "calculate_crest_freeboard_Rc" "short_crested_waves" = Some (Flag VanGent2021Caisson.short_crested_default)
  /\  default_of "hydraulic/wave_overtopping/vangent2021_caisson.py" "calculate_dimensionless_crest_freeboard" "short_crested_waves" = Some (Flag VanGent2021Caisson.short_crested_default)
  /\  default_of "hydraulic/wave_overtopping/vangent2021_caisson.py" "calculate_overtopping_discharge_q" "crossing_seas" = Some (Flag VanGent2021Caisson.crossing_seas_default)
  /\  default_of "hydraulic/wave_overtopping/vangent2021_caisson.py" "calculate_dimensionless_overtopping_discharge_q" "crossing_seas" = Some (Flag VanGent2021Caisson.crossing_seas_default)
  /\  default_of "hydraulic/wave_overtopping/vangent2021_caisson.py" "calculate_crest_freeboard_Rc" "crossing_seas" = Some (Flag VanGent2021Caisson.crossing_seas_default)
  /\  default_of "hydraulic/wave_overtopping/vangent2021_caisson.py" "calculate_dimensionless_crest_freeboard" "crossing_seas" = Some (Flag VanGent2021Caisson.crossing_seas_default)
  /\  default_of "hydraulic/wave_overtopping/vangent2021_caisson.py" "calculate_overtopping_discharge_q" "parapet" = Some (Flag VanGent2021Caisson.parapet_default)
  /\  default_of "hydraulic/wave_overtopping/vangent2021_caisson.py" "calculate_dimensionless_overtopping_discharge_q" "parapet" = Some (Flag VanGent2021Caisson.parapet_default)
  /\  default_of "hydraulic/wave_overtopping/vangent2021_caisson.py" "calculate_crest_freeboard_Rc" "parapet" = Some (Flag VanGent2021Caisson.parapet_default)
  /\  default_of "hydraulic/wave_overtopping/vangent2021_caisson.py" "calculate_dimensionless_crest_freeboard" "parapet" = Some (Flag VanGent2021Caisson.parapet_default).
Proof. repeat split; vm_compute; reflexivity. Qed.

(** The steepness of a wave: gravity is filled in, keywords go by name, and the calls Python refuses are refused. *)
Example C82_example : exists ps, signature_of "core_physics.py" "calculate_wave_steepness_s" = Some ps
  /\ (forall H T, bind_arguments literal (fun l => l) ps [H] [("T", T)] = Some [H; T; Number (Qmake 981 100)])
  /\ (forall H T g, bind_arguments literal (fun l => l) ps [] [("g", g); ("T", T); ("H", H)] = Some [H; T; g])
  /\ (forall H, bind_arguments literal (fun l => l) ps [H] [] = None)
  /\ (forall H T, bind_arguments literal (fun l => l) ps [H; T] [("H", H)] = None)
  /\ (forall H T, bind_arguments literal (fun l => l) ps [H; T] [("gravity", H)] = None)
  /\ (forall H T g x, bind_arguments literal (fun l => l) ps [H; T; g; x] [] = None).
Proof. eexists. split; [vm_compute; reflexivity|]. repeat split. Qed.
