(** Properties C01-C07: the shared helpers. *)
From Coq Require Import Reals Lra Lia List Bool String.
From Verif.Lib Require Import Num Monad RTac NTac.
From Verif.Spec Require Import Waves Ranges.
From Verif.Model Require Import CoreUtility CorePhysics.
From Verif.Proofs Require Import Core.
Import ListNotations.
Open Scope R_scope.

(** ** C01 *)
Lemma nlt_below x y : nlt x y = true <-> below x y.
Proof.
  destruct x, y; simpl; try rewrite Rltb_iff; split; intros; try discriminate; tauto.
Qed.

Lemma out_of_range_b v lo hi : (nlt v lo || ngt v hi)%bool = true <-> out_of_range v lo hi.
Proof. unfold ngt, out_of_range. rewrite orb_true_iff, !nlt_below. tauto. Qed.

Theorem C01_validity_check_reports_exactly_the_outliers :
  forall name formula vs lo hi,
  exists bs ws,
    check_variable_validity_range name formula (PyArr vs) lo hi = (ws, Ok bs)
    /\ report name formula lo hi vs bs ws
    /\ List.length bs = List.length vs.
Proof.
  intros. cbn [check_variable_validity_range].
  pose proof (value_check_values name formula vs lo hi) as HV.
  pose proof (warns_check_values name formula vs lo hi) as HW.
  destruct (check_values name formula vs lo hi) as [ws r]. unfold value, warns in *. simpl in HV, HW.
  subst. eexists _, _. split; [reflexivity|]. split; [|apply map_length].
  clear. induction vs as [|v vs IH]; simpl; [constructor|].
  destruct (nlt v lo || ngt v hi)%bool eqn:E; simpl; constructor; try assumption.
  - apply out_of_range_b. assumption.
  - rewrite <- out_of_range_b. congruence.
Qed.

Theorem C01_scalar_is_a_singleton :
  forall name formula v lo hi,
    check_variable_validity_range name formula (PyFloat v) lo hi
      = check_variable_validity_range name formula (PyArr [v]) lo hi
    /\ check_variable_validity_range name formula (PyInt v) lo hi
      = check_variable_validity_range name formula (PyArr [v]) lo hi.
Proof. intros. split; reflexivity. Qed.

Theorem C01_missing_values_never_flagged :
  forall name formula n lo hi,
    check_variable_validity_range name formula (PyArr (repeat NaN n)) lo hi
    = ([], Ok (repeat true n)).
Proof.
  intros. cbn [check_variable_validity_range].
  induction n as [|n IH]; [reflexivity|]. cbn [repeat check_values nlt ngt orb].
  rewrite ngt_nan_l. simpl orb. cbv iota. rewrite IH. reflexivity.
Qed.

Example C01_example :
  check_variable_validity_range "ksi" "X" (PyArr [#3; NaN; PInf; #1])%num #0.5 #2
  = ([WRange "ksi" "X" #3 #0.5 #2; WRange "ksi" "X" PInf #0.5 #2]%num,
     Ok [false; true; false; true]).
Proof.
  pose proof (value_check_values "ksi" "X" [#3; NaN; PInf; #1]%num #0.5%num #2%num) as HV.
  pose proof (warns_check_values "ksi" "X" [#3; NaN; PInf; #1]%num #0.5%num #2%num) as HW.
  cbn [check_variable_validity_range].
  destruct (check_values _ _ _ _ _) as [ws r]. unfold value, warns in *. simpl in HV, HW.
  rewrite HV, HW. unfold ngt; simpl.
  rewrite !(Rltb_false _ 0.5), !(Rltb_true 2 3), (Rltb_false 2 1) by lra. reflexivity.
Qed.

(** ** C02 *)
Theorem C02_steepness_definition :
  forall g H T, 0 < g -> 0 < H -> 0 < T ->
    calculate_wave_steepness_s (Fin H) (Fin T) (Fin g) = Fin (2 * PI * H / (g * T ^ 2))
    /\ 0 < 2 * PI * H / (g * T ^ 2).
Proof. intros. split; [apply steepness_fin; assumption | rpos]. Qed.

Theorem C02_iribarren_definition :
  forall H T c, 0 < H -> 0 < T -> 0 < c ->
    calculate_Iribarren_number_ksi (Fin H) (Fin T) (Fin c)
      = Fin ((1 / c) / sqrt (2 * PI * H / (9.81 * T ^ 2)))
    /\ 0 < (1 / c) / sqrt (2 * PI * H / (9.81 * T ^ 2)).
Proof.
  intros. split; [rewrite iribarren_fin by lra; reflexivity |].
  apply Rdiv_lt_0_compat; [rpos|]. apply sqrt_lt_R0. rpos.
Qed.

Theorem C02_froude_invariance :
  forall g H T c l, 0 < g -> 0 < H -> 0 < T -> 0 < c -> 0 < l ->
    calculate_wave_steepness_s (Fin (l * H)) (Fin (sqrt l * T)) (Fin g)
      = calculate_wave_steepness_s (Fin H) (Fin T) (Fin g)
    /\ calculate_Iribarren_number_ksi (Fin (l * H)) (Fin (sqrt l * T)) (Fin c)
      = calculate_Iribarren_number_ksi (Fin H) (Fin T) (Fin c).
Proof.
  intros. assert (0 < sqrt l) by rpos.
  rewrite !steepness_fin, !iribarren_fin, steepness_froude by rpos. split; [reflexivity|].
  unfold iribarren. rewrite steepness_froude by (rpos || apply g0_pos). reflexivity.
Qed.

(** ** C03 *)
Theorem C03_mass_diameter_inverse :
  forall x rho, 0 < x -> 0 < rho ->
    calculate_Dn50_from_M50 (calculate_M50_from_Dn50 (Fin x) (Fin rho)) (Fin rho) = Fin x
    /\ calculate_M50_from_Dn50 (calculate_Dn50_from_M50 (Fin x) (Fin rho)) (Fin rho) = Fin x.
Proof.
  intros. split.
  - rewrite M50_fin, Dn50_fin by (unfold mass_of; rpos). f_equal. apply cube_root_mass; assumption.
  - rewrite Dn50_fin, M50_fin by assumption. f_equal. apply mass_cube_root; assumption.
Qed.

Theorem C03_mass_increasing :
  forall D1 D2 rho, 0 < D1 -> D1 < D2 -> 0 < rho ->
  exists m1 m2,
    calculate_M50_from_Dn50 (Fin D1) (Fin rho) = Fin m1
    /\ calculate_M50_from_Dn50 (Fin D2) (Fin rho) = Fin m2 /\ m1 < m2.
Proof.
  intros. exists (mass_of rho D1), (mass_of rho D2). rewrite !M50_fin. repeat split.
  unfold mass_of. apply Rmult_lt_compat_l; [assumption|].
  rewrite <- !Rpower_3 by lra. apply Rpower_lt_base; lra.
Qed.

Theorem C03_diameter_increasing :
  forall m1 m2 rho, 0 < m1 -> m1 < m2 -> 0 < rho ->
  exists D1 D2,
    calculate_Dn50_from_M50 (Fin m1) (Fin rho) = Fin D1
    /\ calculate_Dn50_from_M50 (Fin m2) (Fin rho) = Fin D2 /\ D1 < D2.
Proof.
  intros. eexists _, _. rewrite !Dn50_fin by lra. repeat split.
  apply Rpower_lt_base; [lra|rpos|]. apply Rmult_lt_compat_r; [rpos|assumption].
Qed.

(** ** C04 *)
Theorem C04_both_missing :
  forall Dn50 M50 rho,
    value (check_usage_Dn50_or_M50 Dn50 M50 rho) = Err ValueError
    <-> Dn50 = NaN /\ M50 = NaN.
Proof.
  intros. unfold check_usage_Dn50_or_M50.
  destruct Dn50, M50, rho; simpl; split; intros; try discriminate; try tauto;
    destruct H; discriminate.
Qed.

Theorem C04_diameter_wins :
  forall Dn50 M50 rho, Dn50 <> NaN -> check_usage_Dn50_or_M50 Dn50 M50 rho = ret Dn50.
Proof. intros. destruct Dn50; [reflexivity..|congruence]. Qed.

Theorem C04_mass_is_converted :
  forall m rho, 0 < m -> 0 < rho ->
  exists D, 0 < D /\ check_usage_Dn50_or_M50 NaN (Fin m) (Fin rho) = ([], Ok (Fin D))
    /\ rho * D ^ 3 = m.
Proof.
  intros. exists (Rpower (m / rho) (1 / 3)). split; [rpos|]. split.
  - unfold check_usage_Dn50_or_M50. simpl andb. cbv iota. unfold isnan at 1.
    rewrite Dn50_fin by assumption. reflexivity.
  - apply mass_cube_root; assumption.
Qed.

Theorem C04_default_density_is_announced :
  forall m, 0 < m ->
  exists D w, 0 < D /\ check_usage_Dn50_or_M50 NaN (Fin m) NaN = ([WText w], Ok (Fin D))
    /\ 2650 * D ^ 3 = m.
Proof.
  intros. exists (Rpower (m / 2650) (1 / 3)). eexists. split; [rpos|]. split.
  - unfold check_usage_Dn50_or_M50. simpl andb. cbv iota. unfold isnan at 1.
    rewrite Dn50_fin by lra. reflexivity.
  - apply (mass_cube_root m 2650); lra.
Qed.

(** ** C05 *)
Theorem C05_S_Nod_inverse :
  forall x G nv, 0 < G -> nv <> 1 ->
    calculate_S_from_Nod (calculate_Nod_from_S (Fin x) (Fin G) (Fin nv)) (Fin G) (Fin nv) = Fin x
    /\ calculate_Nod_from_S (calculate_S_from_Nod (Fin x) (Fin G) (Fin nv)) (Fin G) (Fin nv) = Fin x.
Proof.
  intros. unfold calculate_S_from_Nod, calculate_Nod_from_S.
  assert (G * (1 - nv) <> 0) by (apply Rmult_integral_contrapositive; lra).
  split; nfin; f_equal; field; split; lra.
Qed.

Theorem C05_S_counts_stones_per_strip :
  forall Nod G nv, 0 < G -> nv < 1 ->
  exists S, calculate_S_from_Nod (Fin Nod) (Fin G) (Fin nv) = Fin S /\ Nod = G * (1 - nv) * S.
Proof.
  intros. unfold calculate_S_from_Nod. assert (0 < G * (1 - nv)) by (apply Rmult_lt_0_compat; lra).
  nfin. eexists. split; [reflexivity|]. field. split; lra.
Qed.

(** ** C06 *)
Definition given (o : option R) : option num := option_map Fin o.
Definition missing_count (Hs Dn De Ns : option R) : nat :=
  List.length (filter (fun o => match o with None => true | Some _ => false end) [Hs; Dn; De; Ns]).

(** [stability_relation Hs Dn De Ns]: the four quantities satisfy Hs = Ns De Dn. *)
Definition stability_relation (Hs Dn De Ns : R) : Prop := Hs = Ns * De * Dn.

Definition nonzero (o : option R) : Prop := match o with Some r => r <> 0 | None => True end.

Theorem C06_error_iff_not_exactly_one_missing :
  forall Hs Dn De Ns : option num,
    (exists r, value (check_usage_stabilitynumber Hs Dn De Ns) = Ok r)
    <-> List.length (filter (fun o : option num => match o with None => true | Some _ => false end)
                      [Hs; Dn; De; Ns]) = 1%nat.
Proof.
  intros. destruct Hs, Dn, De, Ns; simpl; split; intros H; try discriminate H;
    try (destruct H; discriminate); eauto.
Qed.

Theorem C06_only_value_errors :
  forall Hs Dn De Ns e,
    value (check_usage_stabilitynumber Hs Dn De Ns) = Err e -> e = ValueError.
Proof. intros Hs Dn De Ns e. destruct Hs, Dn, De, Ns; simpl; congruence. Qed.

Theorem C06_fills_in_the_missing_quantity :
  forall Hs Dn De Ns : R, Hs <> 0 -> Dn <> 0 -> De <> 0 -> Ns <> 0 ->
    (exists x, value (check_usage_stabilitynumber None (Some (Fin Dn)) (Some (Fin De)) (Some (Fin Ns)))
        = Ok (Fin x, "Hs"%string) /\ stability_relation x Dn De Ns)
    /\ (exists x, value (check_usage_stabilitynumber (Some (Fin Hs)) None (Some (Fin De)) (Some (Fin Ns)))
        = Ok (Fin x, "Dn"%string) /\ stability_relation Hs x De Ns)
    /\ (exists x, value (check_usage_stabilitynumber (Some (Fin Hs)) (Some (Fin Dn)) None (Some (Fin Ns)))
        = Ok (Fin x, "Delta"%string) /\ stability_relation Hs Dn x Ns)
    /\ (exists x, value (check_usage_stabilitynumber (Some (Fin Hs)) (Some (Fin Dn)) (Some (Fin De)) None)
        = Ok (Fin x, "Ns"%string) /\ stability_relation Hs Dn De x).
Proof.
  intros. unfold stability_relation.
  assert (De * Dn <> 0) by (apply Rmult_integral_contrapositive; tauto).
  repeat split; cbn [check_usage_stabilitynumber is_none b2n Nat.add Nat.ltb Nat.leb Nat.eqb];
    nfin; eexists; (split; [reflexivity|]); field; tauto.
Qed.

(** ** C07 *)
Section C07.
Variable disper : num -> num -> num -> num.

(** [matches g T h L]: L is a wavelength for the wave number of (T,h). *)
Definition wavelength_of (g T h L : num) : Prop :=
  L = (Fin (2 * PI) / disper (Fin (2 * PI) / T) h g)%num.

Theorem C07_scalar_depth_scalar_period :
  forall T h g, exists L,
    value (calculate_local_wavelength disper (PyFloat T) (PyFloat h) g) = Ok (PyFloat L)
    /\ wavelength_of g T h L.
Proof. intros. eexists. split; reflexivity. Qed.

Theorem C07_depth_array_one_period :
  forall T hs g, (2 <= List.length hs)%nat -> exists Ls,
    value (calculate_local_wavelength disper (PyFloat T) (PyArr hs) g) = Ok (PyArr Ls)
    /\ Forall2 (fun h L => wavelength_of g T h L) hs Ls.
Proof.
  intros T hs g Hl. unfold calculate_local_wavelength.
  replace (Nat.ltb 1 (List.length hs)) with true by (symmetry; apply Nat.ltb_lt; lia).
  eexists. split; [reflexivity|]. clear Hl. induction hs; simpl; constructor; [reflexivity|assumption].
Qed.

Theorem C07_depth_array_period_array :
  forall Ts hs g, (2 <= List.length hs)%nat -> List.length Ts = List.length hs -> exists Ls,
    value (calculate_local_wavelength disper (PyArr Ts) (PyArr hs) g) = Ok (PyArr Ls)
    /\ Forall2 (fun Th L => wavelength_of g (fst Th) (snd Th) L) (combine Ts hs) Ls.
Proof.
  intros Ts hs g Hl E. unfold calculate_local_wavelength.
  replace (Nat.ltb 1 (List.length hs)) with true by (symmetry; apply Nat.ltb_lt; lia).
  rewrite E, Nat.eqb_refl.
  eexists. split; [reflexivity|]. clear Hl. revert Ts E.
  induction hs; intros [|T Ts] E; simpl in *; try discriminate; constructor.
  - reflexivity.
  - apply IHhs. lia.
Qed.

Theorem C07_shapes_that_never_return :
  forall T h hs Ts g,
    value (calculate_local_wavelength disper T (PyArr [h]) g) = Err UnboundLocalError
    /\ value (calculate_local_wavelength disper T (PyArr []) g) = Err UnboundLocalError
    /\ ((2 <= List.length hs)%nat ->
         (forall t, value (calculate_local_wavelength disper (PyInt t) (PyArr hs) g) = Err TypeError)
         /\ (List.length Ts <> List.length hs ->
              value (calculate_local_wavelength disper (PyArr Ts) (PyArr hs) g) = Err UnboundLocalError)).
Proof.
  intros. split; [destruct T; reflexivity|]. split; [destruct T; reflexivity|].
  intros Hl. unfold calculate_local_wavelength.
  replace (Nat.ltb 1 (List.length hs)) with true by (symmetry; apply Nat.ltb_lt; lia).
  split; [reflexivity|]. intros E. 
  destruct (Nat.eqb_spec (List.length hs) (List.length Ts)); [congruence|reflexivity].
Qed.

(** With a scalar depth an array of periods gives one wavelength only, that of
    the first period. *)
Theorem C07_period_array_scalar_depth_refuted :
  forall t ts h g, exists L,
    value (calculate_local_wavelength disper (PyArr (t :: ts)) (PyFloat h) g) = Ok (PyFloat L)
    /\ wavelength_of g t h L.
Proof. intros. eexists. split; reflexivity. Qed.
End C07.

Example C07_example :
  let deep := fun w (_ : num) g => (npow w #2 / g)%num in
  value (calculate_local_wavelength deep (PyFloat (Fin (2 * PI))) (PyFloat #10%num) #1%num)
  = Ok (PyFloat (Fin (2 * PI))).
Proof.
  intros. unfold deep, calculate_local_wavelength, omegas, two_pi. cbn [map].
  assert (0 < 2 * PI) by rpos.
  nfin. mval. do 3 f_equal. pose proof PI_RGT_0. field. repeat split; lra.
Qed.
