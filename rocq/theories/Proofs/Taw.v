(** Evaluation of the TAW (2002) run-up functions. *)
From Coq Require Import Reals Lra Lia List Bool String FunctionalExtensionality.
From Verif.Lib Require Import Num Monad RTac NTac.
From Verif.Spec Require Import Waves Taw.
From Verif.Model Require Import CoreUtility CorePhysics RunupTAW2002.
From Verif.Proofs Require Import Core CheckTac Warns.
Import ListNotations.
Open Scope R_scope.

Lemma taw_check_ok H T gf gb gbeta cot : value (check_validity_range H T gf gb gbeta cot) = Ok tt.
Proof. unfold check_validity_range. mchecks. reflexivity. Qed.

(** ** Influence factors on finite values *)
Lemma oblique_fin beta c : calculate_influence_oblique_waves_gamma_beta (Fin beta) (Fin c) max_angle_default = Fin (taw_oblique c beta).
Proof.
  unfold calculate_influence_oblique_waves_gamma_beta, max_angle_default, taw_oblique. nfin.
  destruct (Rltb_spec beta 0); nfin; match goal with |- context [Rltb 80 ?x] => destruct (Rltb_spec 80 x) as [L|L] end; nfin; f_equal.
  - rewrite Rmin_right by lra. reflexivity.
  - rewrite Rmin_left by lra. reflexivity.
  - rewrite Rabs_pos_eq by lra. rewrite Rmin_right by lra. reflexivity.
  - rewrite Rabs_pos_eq by lra. rewrite Rmin_left by lra. reflexivity.
Qed.

Lemma berm_position_exists H z db : 0 < H -> exists r, berm_position H z db r /\ 0 <= r <= 1
  /\ (if (Rltb (2 * H) db || Rltb db (- z))%bool then #1
      else #0.5 - #0.5 * ncos (npi * Fin db / (if Rltb db 0 then Fin z else Fin (2 * H))))%num = Fin r.
Proof.
  intros HH. destruct (Rltb_spec (2 * H) db) as [A|A]; cbn [orb].
  { exists 1. split; [apply berm_out_of_reach; lra|]. split; [lra|reflexivity]. }
  destruct (Rltb_spec db (- z)) as [B|B]; cbn [orb].
  { exists 1. split; [apply berm_out_of_reach; lra|]. split; [lra|reflexivity]. }
  destruct (Rltb_spec db 0) as [C|C].
  - exists (0.5 - 0.5 * cos (PI * db / z)). split; [apply berm_above; lra|]. pose proof (COS_bound (PI * db / z)).
    split; [lra|]. rewrite npi_fin. nfin. reflexivity.
  - exists (0.5 - 0.5 * cos (PI * db / (2 * H))). split; [apply berm_below; lra|]. pose proof (COS_bound (PI * db / (2 * H))).
    split; [lra|]. rewrite npi_fin. nfin. reflexivity.
Qed.

Lemma berm_fin H z db B L : 0 < H -> L <> 0 ->
  exists r, berm_position H z db r /\ 0 <= r <= 1
    /\ calculate_influence_berm_gamma_b (Fin H) (Fin z) (Fin db) (Fin B) (Fin L) = Fin (taw_berm B L r).
Proof.
  intros HH HL. destruct (berm_position_exists H z db HH) as (r & P & Q & E). exists r. split; [assumption|]. split; [assumption|].
  unfold calculate_influence_berm_gamma_b. rewrite nneg_fin, nmul_fin, !nlt_fin, !ngt_fin.
  cbv zeta. rewrite E. rewrite ndiv_fin by assumption. nfin. f_equal. unfold taw_berm. rewrite Rmax_comm, (Rmin_comm 1). reflexivity.
Qed.

Lemma berm_position_fun H z db r r' : berm_position H z db r -> berm_position H z db r' -> r = r'.
Proof. intros P Q; destruct P, Q; try reflexivity; exfalso; lra. Qed.

Lemma roughness_fin gf gb xi :
  calculate_adjusted_influence_roughness_gamma_f (Fin gf) (Fin gb) (Fin xi) = Fin (taw_roughness gf gb xi).
Proof.
  unfold calculate_adjusted_influence_roughness_gamma_f, taw_roughness. nfin.
  destruct (Rleb_spec 1.8 (gb * xi)), (Rle_dec 1.8 (gb * xi)); try lra; cbn [andb]; [|reflexivity].
  destruct (Rleb_spec (gb * xi) 10), (Rle_dec (gb * xi) 10); try lra; [|reflexivity].
  f_equal. replace (10 - 1.8) with 8.2 by lra. field. lra.
Qed.

Lemma average_fin H z cd cu B db : 1.5 * H + z <> 0 -> (1.5 * H - db) * cd + (z + db) * cu <> 0 ->
  determine_average_slope (Fin H) (Fin z) (Fin cd) (Fin cu) (Fin B) (Fin db) = Fin (average_cot H z cd cu db).
Proof.
  intros A C. unfold determine_average_slope, average_cot. nfin.
  assert (E : (1.5 * H - db) * cd + B + (z + db) * cu - B = (1.5 * H - db) * cd + (z + db) * cu) by ring.
  rewrite E.
  rewrite ndiv_fin. { f_equal. field. tauto. }
  unfold Rdiv. apply Rmult_integral_contrapositive. split; [assumption|]. apply Rinv_neq_0_compat. assumption.
Qed.

(** ** The run-up functions, before the recursion is closed *)
Lemma beta_known (beta : num) gbeta : check_calculate_gamma_beta beta (Fin gbeta) = ret false.
Proof. unfold check_calculate_gamma_beta. destruct beta; reflexivity. Qed.
Lemma beta_given b : check_calculate_gamma_beta (Fin b) NaN = ret true.
Proof. reflexivity. Qed.
Lemma simple_slope c (cu : num) : check_composite_slope (Fin c) NaN cu = ret false.
Proof. reflexivity. Qed.
Lemma composite_slope (c : num) cd cu : check_composite_slope c (Fin cd) (Fin cu) = ret true.
Proof. destruct c; reflexivity. Qed.

(** The value for a simple slope and a given berm factor. *)
Definition coefs (bf : bool) (c1 c2 c3 c4 : R) : R * R * R * R := if bf then (1.65, 4, 1.5, 1) else (c1, c2, c3, c4).

Lemma best_fit_fin bf c1 c2 c3 c4 :
  best_fit_coefficients bf (Fin c1) (Fin c2) (Fin c3) (Fin c4)
  = let '(a, b, c, d) := coefs bf c1 c2 c3 c4 in (Fin a, Fin b, Fin c, Fin d).
Proof. destruct bf; reflexivity. Qed.

Definition taw_runup_bf (bf : bool) c1 c2 c3 c4 gb gf gbeta xi : R :=
  let '(c1, c2, c3, c4) := coefs bf c1 c2 c3 c4 in taw_runup c1 c2 c3 c4 gb gf gbeta xi.
Definition taw_flag (bf : bool) c1 c2 c3 c4 gb gf gbeta xi : bool :=
  let '(c1, c2, c3, c4) := coefs bf c1 c2 c3 c4 in
  let f := taw_roughness gf gb xi in
  Reqb (Rmin (taw_slope_runup c1 gb f gbeta xi) (taw_max_runup c2 c3 c4 f gbeta xi)) (taw_max_runup c2 c3 c4 f gbeta xi).

Lemma simple_value rec H T gbeta beta' gbeta' gb gf B db cot cu c1 c2 c3 c4 bf :
  0 < H -> 0 < T -> 0 < cot ->
  (gbeta' = Fin gbeta \/ gbeta' = NaN /\ exists b, beta' = Fin b /\ gbeta = taw_oblique 0.0022 b) ->
  let xi := iribarren g0 H T (1 / cot) in
  value (dimensionless_body rec (Fin H) (Fin T) beta' gbeta' (Fin gb) (Fin gf) B db (Fin cot) NaN cu
           (Fin c1) (Fin c2) (Fin c3) (Fin c4) bf)
  = Ok (Fin (taw_runup_bf bf c1 c2 c3 c4 gb gf gbeta xi), taw_flag bf c1 c2 c3 c4 gb gf gbeta xi).
Proof.
  intros HH HT HC HB xi. unfold dimensionless_body. rewrite best_fit_fin.
  unfold taw_runup_bf, taw_flag. destruct (coefs bf c1 c2 c3 c4) as [[[a b] c] d].
  assert (X : 0 < xi) by (apply iribarren_pos; try assumption; [apply g0_pos|rpos]).
  rewrite simple_slope.
  assert (G : bind (check_calculate_gamma_beta beta' gbeta')
      (fun cg => ret (if cg then calculate_influence_oblique_waves_gamma_beta beta' c_gamma_beta_default max_angle_default else gbeta'))
      = ret (Fin gbeta)).
  { destruct HB as [->|(-> & b' & -> & ->)].
    - rewrite beta_known, bind_ret_l. reflexivity.
    - rewrite beta_given, bind_ret_l. unfold c_gamma_beta_default. rewrite oblique_fin. reflexivity. }
  destruct (check_calculate_gamma_beta beta' gbeta') as [w [cg|e]]; [|discriminate G].
  cbv beta iota delta [bind ret] in G. injection G as Gw Gv. rewrite app_nil_r in Gw. subst w.
  change (@nil warning, Ok cg) with (ret cg). rewrite bind_ret_l. cbv zeta. rewrite Gv.
  rewrite !bind_ret_l. cbn [isnan]. rewrite bind_ret_l.
  rewrite iribarren_fin by lra. fold xi. rewrite roughness_fin.
  assert (0 < sqrt xi) by (apply sqrt_lt_R0; assumption).
  mval. rewrite taw_check_ok. mval. nfin. unfold taw_runup, taw_slope_runup, taw_max_runup.
  reflexivity.
Qed.

(** The calls of the iteration procedures do not recurse. *)
Lemma body_simple rec rec' H T beta gbeta gb gf B db cot cu c1 c2 c3 c4 bf :
  dimensionless_body rec H T beta gbeta gb gf B db cot NaN cu c1 c2 c3 c4 bf
  = dimensionless_body rec' H T beta gbeta gb gf B db cot NaN cu c1 c2 c3 c4 bf.
Proof.
  unfold dimensionless_body. destruct (best_fit_coefficients bf c1 c2 c3 c4) as [[[a b] c] d].
  f_equal.
Qed.

Lemma depth_irrelevant d d' : runup_upto (S d) = runup_upto (S d').
Proof.
  unfold runup_upto. repeat (apply functional_extensionality; intro). cbn [calculate_wave_runup_height_z2p_upto].
  f_equal.
Qed.

(** No call raises RecursionError by itself. *)
Definition bounded {A} (m : M A) : Prop := value m <> Err RecursionError.

Lemma bounded_bind {A B} (m : M A) (k : A -> M B) : bounded m -> (forall a, bounded (k a)) -> bounded (bind m k).
Proof. unfold bounded. intros Hm Hk. rewrite value_bind. destruct (value m); [apply Hk|congruence]. Qed.
Lemma bounded_ret {A} (a : A) : bounded (ret a). Proof. discriminate. Qed.

Lemma bounded_gamma beta gbeta : bounded (check_calculate_gamma_beta beta gbeta).
Proof. unfold check_calculate_gamma_beta. destruct beta, gbeta; discriminate. Qed.
Lemma bounded_composite a b c : bounded (check_composite_slope a b c).
Proof. unfold check_composite_slope. destruct a, b, c; discriminate. Qed.
Lemma bounded_length H B a b c : bounded (calculate_berm_length H B a b c).
Proof. apply bounded_bind; [apply bounded_composite|intros; apply bounded_ret]. Qed.

Lemma bounded_body rec H T beta gbeta gb gf B db cot cd cu c1 c2 c3 c4 bf :
  (forall H T gbeta gb gf cot c1 c2 c3 c4 bf, bounded (rec H T gbeta gb gf cot c1 c2 c3 c4 bf)) ->
  bounded (dimensionless_body rec H T beta gbeta gb gf B db cot cd cu c1 c2 c3 c4 bf).
Proof.
  intros R. unfold dimensionless_body. destruct (best_fit_coefficients bf c1 c2 c3 c4) as [[[a b] c] d].
  apply bounded_bind; [apply bounded_gamma|]. intros cg. apply bounded_bind; [apply bounded_composite|]. intros cs.
  apply bounded_bind.
  - destruct cs; [|apply bounded_ret]. apply bounded_bind; [|intros; apply bounded_ret].
    unfold iteration_procedure_z2p_body. generalize (S max_iter_default) as n. intros n.
    generalize ((#1.5 * H + #2 * tolerance_default)%num) as z0. generalize ((#1.5 * H)%num) as z1.
    induction n; intros z1 z0; cbn [z2p_iterations]; [apply bounded_ret|].
    destruct (ngt _ _); [|apply bounded_ret]. apply bounded_bind; [apply bounded_length|]. intros L.
    apply bounded_bind; [apply R|]. intros [z2 fl]. apply IHn.
  - intros ca. apply bounded_bind.
    + destruct (isnan gb); [|apply bounded_ret]. apply bounded_bind; [apply bounded_length|]. intros L.
      unfold iteration_procedure_gamma_b_body. destruct (_ || _)%bool; [apply bounded_ret|].
      apply bounded_bind; [apply R|]. intros [z2 fl]. apply bounded_bind; [apply R|]. intros [z3 fl3]. apply bounded_ret.
    + intros gb'. apply bounded_bind; [|intros; apply bounded_ret]. unfold bounded. rewrite taw_check_ok. discriminate.
Qed.
