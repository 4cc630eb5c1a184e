From Coq Require Import Reals List Bool Arith Lia Lra FunctionalExtensionality.
From Verif.Lib Require Import Num Monad Arr ArrFlags ArrLoop RTac NTac.
From Verif.Spec Require Import Arrays ArrayFlags.
From Verif.Proofs Require Import Core CheckTac Arrays ArrayLoops ArrayFlags.
From Verif.Model Require CorePhysics RunupTAW2002 OvertoppingTAW2002.
From Verif.Model Require Import CoreUtility ArrCore ArrRunupTAW2002.
Import ListNotations.
Open Scope nat_scope.

#[export] Hint Unfold ArrRunupTAW2002.calculate_adjusted_influence_roughness_gamma_f
  ArrRunupTAW2002.calculate_influence_oblique_waves_gamma_beta ArrRunupTAW2002.determine_average_slope float : arrays.

(** What a call gives at each place *)
Definition gives (sh : option nat) (call : M (nums * arr bool)) (v : nat -> num) (w : nat -> bool) : Prop :=
  exists r m, value call = Ok (r, m) /\ shape r = sh /\ shape m = sh
  /\ forall i, inside sh i -> at_ r i = Some (v i) /\ at_ m i = Some (w i).

Lemma gives_answers sh call v w scalar : gives sh call v w ->
  (forall i, inside sh i -> scalar (place i) = Ok (v i, w i)) -> answers sh call scalar.
Proof.
  intros (r & m & E & Sr & Sm & V) H. exists r, m. split; [auto|]. split; [auto|]. split; [auto|].
  intros i I. destruct (V i I) as (Vr & Vm). exists (w i). split; [auto|]. rewrite H by auto. unfold place. rewrite Vr. reflexivity.
Qed.
Lemma gives_ext sh call v w v' w' : gives sh call v w -> (forall i, inside sh i -> v i = v' i /\ w i = w' i) -> gives sh call v' w'.
Proof.
  intros (r & m & E & Sr & Sm & V) H. exists r, m. split; [auto|]. split; [auto|]. split; [auto|].
  intros i I. destruct (V i I) as (Vr & Vm), (H i I) as (<- & <-). auto.
Qed.

(** The smaller of two equations and which of the two it is *)
Lemma gives_limited sh (x y : nums) vx vy (checks : M unit) : whole sh (value_of x) vx -> whole sh (value_of y) vy -> value checks = Ok tt ->
  gives sh (z <- stacked_min x y ;; m <- (stacked_min x y =? y)%arr ;; checks ;; ret (z, m))
    (fun i => nmin (vx i) (vy i)) (fun i => neqb (nmin (vx i) (vy i)) (vy i)).
Proof.
  intros Hx Hy C. pose proof (whole_stacked nmin sh _ _ _ _ Hx Hy) as (z & Ez & Sz & Vz).
  destruct Hy as (y' & Ey & Sy & Vy). injection Ey as <-.
  destruct (whole_bcast neqb sh z y _ _ Sz Sy Vz Vy) as (m & Em & Sm & Vm).
  exists z, m. split; [|split; [auto|split; [auto|intros i I; split; [apply Vz; auto|apply Vm; auto]]]].
  unfold stacked_min. apply (steps _ _ z _ Ez). apply (steps _ _ m).
  - unfold cmp, lift2. apply (steps _ _ z _ Ez). apply (steps _ _ y); [reflexivity|exact Em].
  - apply (steps _ _ tt _ C). reflexivity.
Qed.

(** ** Influence factors *)

Lemma calculate_beta_given beta gamma_beta : filled gamma_beta ->
  ArrRunupTAW2002.check_calculate_gamma_beta beta gamma_beta = ret false.
Proof. intros F. unfold ArrRunupTAW2002.check_calculate_gamma_beta. rewrite (filled_not_all _ F), andb_false_r. reflexivity. Qed.
Lemma calculate_beta_missing beta gamma_beta : missing gamma_beta -> filled beta ->
  ArrRunupTAW2002.check_calculate_gamma_beta beta gamma_beta = ret true.
Proof. intros N F. unfold ArrRunupTAW2002.check_calculate_gamma_beta. rewrite (missing_all _ N), (filled_not_all _ F). reflexivity. Qed.
Lemma single_slope cot down up : filled cot -> missing down \/ missing up ->
  ArrRunupTAW2002.check_composite_slope cot down up = ret false.
Proof.
  intros F N. unfold ArrRunupTAW2002.check_composite_slope. rewrite (filled_not_all _ F). cbn [andb].
  destruct N as [N|N]; rewrite (missing_all _ N); [|rewrite andb_false_r]; reflexivity.
Qed.
Lemma composite_slope cot down up : filled down -> filled up ->
  ArrRunupTAW2002.check_composite_slope cot down up = ret true.
Proof.
  intros F N. unfold ArrRunupTAW2002.check_composite_slope. rewrite (filled_not_all _ F), (filled_not_all _ N), andb_false_r. reflexivity.
Qed.
Lemma one_given b x : one_number b x -> is_nan (value_of b) = ret (isnan x).
Proof. destruct b as [y|[|y [|? ?]]]; intros E; try discriminate; injection E as ->; reflexivity. Qed.
Lemma several_given b n : shape b = Some n -> n <> 1 -> value (is_nan (value_of b)) = Err ValueError.
Proof. destruct b as [y|[|y [|? ?]]]; cbn; intros E N; try discriminate; try reflexivity. congruence. Qed.
Lemma one_place b x sh i : one_number b x -> stretches (shape b) sh -> inside sh i -> place i b = x.
Proof. destruct b as [y|[|y [|? ?]]]; intros E; try discriminate; injection E as ->; reflexivity. Qed.

Lemma beta_given_at gamma_beta sh i b : filled gamma_beta -> stretches (shape gamma_beta) sh -> inside sh i ->
  RunupTAW2002.check_calculate_gamma_beta b (place i gamma_beta) = ret false.
Proof. intros F S I. unfold RunupTAW2002.check_calculate_gamma_beta. rewrite (filled_place _ _ _ F S I), andb_false_r. reflexivity. Qed.
Lemma beta_missing_at beta gamma_beta sh i : missing gamma_beta -> filled beta -> stretches (shape beta) sh -> inside sh i ->
  RunupTAW2002.check_calculate_gamma_beta (place i beta) (place i gamma_beta) = ret true.
Proof. intros N F S I. unfold RunupTAW2002.check_calculate_gamma_beta. rewrite (filled_place _ _ _ F S I), (missing_place _ _ N). reflexivity. Qed.
Lemma single_slope_at cot down up sh i : filled cot -> missing down \/ missing up -> stretches (shape cot) sh -> inside sh i ->
  RunupTAW2002.check_composite_slope (place i cot) (place i down) (place i up) = ret false.
Proof.
  intros F N S I. unfold RunupTAW2002.check_composite_slope. rewrite (filled_place _ _ _ F S I). cbn [andb].
  destruct N as [N|N]; rewrite (missing_place _ _ N); [|rewrite andb_false_r]; reflexivity.
Qed.

(** ** Run-up *)

(** The run-up once the slope and the influence factors are known, as numbers *)
Definition runup_a (gb b f k c1 : num) : num :=
  (c1 * b * RunupTAW2002.calculate_adjusted_influence_roughness_gamma_f f b k * gb * k)%num.
Definition runup_b (gb b f k c2 c3 c4 : num) : num :=
  (c4 * RunupTAW2002.calculate_adjusted_influence_roughness_gamma_f f b k * gb * (c2 - c3 / nsqrt k))%num.

Lemma runup_core sh (Hm0 Tmm10 gb b f cot ksi : nums) (c1 c2 c3 c4 : num) vgb vb vf vk :
  stretches (shape Hm0) sh -> stretches (shape Tmm10) sh -> stretches (shape cot) sh ->
  stretches (shape gb) sh -> stretches (shape b) sh -> stretches (shape f) sh -> stretches (shape ksi) sh ->
  den sh (value_of gb) vgb -> den sh (value_of b) vb -> den sh (value_of f) vf -> den sh (value_of ksi) vk ->
  reached sh [shape gb; shape b; shape f; shape ksi] ->
  gives sh (dimensionless_runup Hm0 Tmm10 gb b f cot ksi c1 c2 c3 c4)
    (fun i => nmin (runup_a (vgb i) (vb i) (vf i) (vk i) c1) (runup_b (vgb i) (vb i) (vf i) (vk i) c2 c3 c4))
    (fun i => neqb (nmin (runup_a (vgb i) (vb i) (vf i) (vk i) c1) (runup_b (vgb i) (vb i) (vf i) (vk i) c2 c3 c4))
                (runup_b (vgb i) (vb i) (vf i) (vk i) c2 c3 c4)).
Proof.
  intros S1 S2 S3 S4 S5 S6 S7 D1 D2 D3 D4 R. unfold dimensionless_runup.
  name sh (ArrRunupTAW2002.calculate_adjusted_influence_roughness_gamma_f f b ksi)
    (fun i => RunupTAW2002.calculate_adjusted_influence_roughness_gamma_f (vf i) (vb i) (vk i)) [shape b; shape ksi; shape f] adj.
  assert (Wa : whole sh (float c1 * b * adj * gb * ksi)%arr (fun i => runup_a (vgb i) (vb i) (vf i) (vk i) c1)).
  { eapply whole_intro; [unfold float; eapply den_ext; [den_tac|intros; reflexivity]|unfold float; eapply (uses_incl _ _ [shape gb; shape b; shape f; shape ksi]); [uses_tac|incl_tac]|exact R]. }
  assert (Wb : whole sh (float c4 * adj * gb * (float c2 - float c3 / asqrt ksi))%arr (fun i => runup_b (vgb i) (vb i) (vf i) (vk i) c2 c3 c4)).
  { eapply whole_intro; [unfold float, asqrt; eapply den_ext; [den_tac|intros; reflexivity]|unfold float, asqrt; eapply (uses_incl _ _ [shape gb; shape b; shape f; shape ksi]); [uses_tac|incl_tac]|exact R]. }
  destruct Wa as (ea & Ea & Sa & Va), Wb as (eb & Eb & Sb & Vb).
  destruct (gives_limited sh ea eb _ _ (check_validity_range Hm0 Tmm10 f b gb cot) (ex_intro _ ea (conj eq_refl (conj Sa Va))) (ex_intro _ eb (conj eq_refl (conj Sb Vb)))) as (r & m & E & Sr & Sm & V).
  { assert (W : widens sh sh) by apply stretches_refl. unfold check_validity_range, calculate_wave_steepness_s, calculate_Iribarren_number_ksi, calculate_wave_steepness_s.
    autounfold with arrays. runs_tac. }
  exists r, m. split; [|auto].
  apply (steps _ _ adj _ Eadj). apply (steps _ _ ea _ Ea). apply (steps _ _ eb _ Eb). exact E.
Qed.

Lemma runup_core_uses (Hm0 Tmm10 gb b f cot ksi : nums) (c1 c2 c3 c4 : num) r m :
  value (dimensionless_runup Hm0 Tmm10 gb b f cot ksi c1 c2 c3 c4) = Ok (r, m) ->
  exists sh, Forall (fun s => stretches s sh) [shape gb; shape b; shape f; shape ksi].
Proof.
  unfold dimensionless_runup. intros E. apply step in E as (adj & Ea & E). apply step in E as (ea & Eb & _).
  assert (U : uses (calculate_adjusted_influence_roughness_gamma_f f b ksi) [shape b; shape ksi; shape f]).
  { unfold calculate_adjusted_influence_roughness_gamma_f. eapply uses_incl; [uses_tac|incl_tac]. }
  apply U in Ea. clear U.
  assert (U : uses (float c1 * b * adj * gb * ksi)%arr [shape gb; shape b; shape f; shape ksi]).
  { unfold float. eapply uses_incl; [uses_tac|incl_tac]. }
  exists (shape ea). apply U, Eb.
Qed.

Lemma tame_runup_core (Hm0 Tmm10 gb b f cot ksi : nums) (c1 c2 c3 c4 : num) :
  tame (dimensionless_runup Hm0 Tmm10 gb b f cot ksi c1 c2 c3 c4).
Proof.
  unfold dimensionless_runup, check_validity_range, stacked_min, float. autounfold with arrays. tame_tac.
Qed.

(** A single slope and a number for the influence of the berm *)
Section Single.
Variable rec : forall (Hm0 Tmm10 gamma_beta gamma_b gamma_f cot_alpha : nums) (c1 c2 c3 c4 : num) (use_best_fit : bool), M (nums * arr bool).

Lemma body_given Hm0 Tmm10 beta gamma_beta gamma_b gamma_f B_berm db cot down up c1 c2 c3 c4 best x :
  filled gamma_beta -> filled cot -> missing down \/ missing up -> one_number gamma_b x -> isnan x = false ->
  dimensionless_body rec Hm0 Tmm10 beta gamma_beta gamma_b gamma_f B_berm db cot down up c1 c2 c3 c4 best
  = let '(c1, c2, c3, c4) := RunupTAW2002.best_fit_coefficients best c1 c2 c3 c4 in
    ksi <- calculate_Iribarren_number_ksi Hm0 Tmm10 cot ;;
    dimensionless_runup Hm0 Tmm10 gamma_beta gamma_b gamma_f cot ksi c1 c2 c3 c4.
Proof.
  intros F1 F2 N O X. unfold dimensionless_body. destruct (RunupTAW2002.best_fit_coefficients best c1 c2 c3 c4) as [[[d1 d2] d3] d4].
  rewrite (calculate_beta_given _ _ F1), bind_ret_l. unfold value_of at 1. rewrite bind_ret_l.
  rewrite (single_slope _ _ _ F2 N), bind_ret_l. unfold value_of at 1. rewrite bind_ret_l.
  f_equal. apply functional_extensionality. intros ksi.
  rewrite (one_given _ _ O), X, bind_ret_l. unfold value_of at 1. rewrite bind_ret_l. reflexivity.
Qed.
Lemma body_angle Hm0 Tmm10 beta gamma_beta gamma_b gamma_f B_berm db cot down up c1 c2 c3 c4 best x :
  missing gamma_beta -> filled beta -> filled cot -> missing down \/ missing up -> one_number gamma_b x -> isnan x = false ->
  dimensionless_body rec Hm0 Tmm10 beta gamma_beta gamma_b gamma_f B_berm db cot down up c1 c2 c3 c4 best
  = let '(c1, c2, c3, c4) := RunupTAW2002.best_fit_coefficients best c1 c2 c3 c4 in
    gamma_beta <- calculate_influence_oblique_waves_gamma_beta beta RunupTAW2002.c_gamma_beta_default RunupTAW2002.max_angle_default ;;
    ksi <- calculate_Iribarren_number_ksi Hm0 Tmm10 cot ;;
    dimensionless_runup Hm0 Tmm10 gamma_beta gamma_b gamma_f cot ksi c1 c2 c3 c4.
Proof.
  intros F1 F1' F2 N O X. unfold dimensionless_body. destruct (RunupTAW2002.best_fit_coefficients best c1 c2 c3 c4) as [[[d1 d2] d3] d4].
  rewrite (calculate_beta_missing _ _ F1 F1'), bind_ret_l.
  f_equal. apply functional_extensionality. intros gb.
  rewrite (single_slope _ _ _ F2 N), bind_ret_l. unfold value_of at 1. rewrite bind_ret_l.
  f_equal. apply functional_extensionality. intros ksi.
  rewrite (one_given _ _ O), X, bind_ret_l. unfold value_of at 1. rewrite bind_ret_l. reflexivity.
Qed.
End Single.

(** The scalar run-up with a single slope and all influence factors given *)
Definition runup_pair (best : bool) (gb b f k c1 c2 c3 c4 : num) : num * bool :=
  let '(c1, c2, c3, c4) := RunupTAW2002.best_fit_coefficients best c1 c2 c3 c4 in
  (nmin (runup_a gb b f k c1) (runup_b gb b f k c2 c3 c4),
   neqb (nmin (runup_a gb b f k c1) (runup_b gb b f k c2 c3 c4)) (runup_b gb b f k c2 c3 c4)).
Definition oblique (beta gamma_beta : num) : num :=
  if isnan gamma_beta
  then RunupTAW2002.calculate_influence_oblique_waves_gamma_beta beta RunupTAW2002.c_gamma_beta_default RunupTAW2002.max_angle_default
  else gamma_beta.

Lemma scalar_body rec Hm0 Tmm10 beta gamma_beta gamma_b gamma_f B_berm db cot down up c1 c2 c3 c4 best :
  (isnan beta && isnan gamma_beta)%bool = false -> isnan cot = false -> (isnan down || isnan up)%bool = true -> isnan gamma_b = false ->
  value (RunupTAW2002.dimensionless_body rec Hm0 Tmm10 beta gamma_beta gamma_b gamma_f B_berm db cot down up c1 c2 c3 c4 best)
  = Ok (runup_pair best (oblique beta gamma_beta) gamma_b gamma_f (CorePhysics.calculate_Iribarren_number_ksi Hm0 Tmm10 cot) c1 c2 c3 c4).
Proof.
  intros G C D B. unfold RunupTAW2002.dimensionless_body, runup_pair.
  destruct (RunupTAW2002.best_fit_coefficients best c1 c2 c3 c4) as [[[d1 d2] d3] d4].
  unfold RunupTAW2002.check_calculate_gamma_beta, oblique. rewrite G.
  assert (K : RunupTAW2002.check_composite_slope cot down up = ret false).
  { unfold RunupTAW2002.check_composite_slope. rewrite C. destruct (isnan down), (isnan up); try discriminate; reflexivity. }
  destruct (isnan gamma_beta); rewrite bind_ret_l, K, bind_ret_l, bind_ret_l, B, bind_ret_l; cbv zeta;
    unfold RunupTAW2002.check_validity_range; mchecks; reflexivity.
Qed.

(** ** Products with a result *)
Lemma gives_times sh call v w (e : M nums) u : gives sh call v w -> den sh e u ->
  gives sh (d <- call ;; z <- (fst d * e)%arr ;; ret (z, snd d)) (fun i => nmul (v i) (u i)) w.
Proof.
  intros (r & m & E & Sr & Sm & V) D.
  assert (W : whole sh (r * e)%arr (fun i => nmul (v i) (u i))).
  { apply (whole_intro _ _ _ [sh]); [|intros q Eq|right; left; reflexivity].
    - apply den_lift2; [|exact D]. apply den_value; [rewrite Sr; apply stretches_refl|]. intros i I. apply V, I.
    - unfold op2, lift2 in Eq. apply step in Eq as (a & Ea & Eq). injection Ea as <-. apply step in Eq as (b & _ & Eq).
      apply bcast_shape in Eq as (K & _). rewrite Sr in K. constructor; [exact K|constructor]. }
  destruct W as (z & Ez & Sz & Vz). exists z, m. split; [|split; [auto|split; [auto|]]].
  - apply (steps _ _ (r, m) _ E). cbn [fst snd]. apply (steps _ _ z _ Ez). reflexivity.
  - intros i I. split; [apply Vz, I|apply V, I].
Qed.

(** ** Calls that stop with a ValueError *)
Definition stops {A} (m : M A) : Prop := value m = Err ValueError.
Lemma stops_first {A B} (m : M A) (k : A -> M B) : stops m -> stops (x <- m ;; k x).
Proof. unfold stops. intros H. rewrite value_bind, H. reflexivity. Qed.
Lemma stops_then {A B} (m : M A) (k : A -> M B) : tame m -> (forall a, value m = Ok a -> stops (k a)) -> stops (x <- m ;; k x).
Proof.
  unfold stops. intros H K. rewrite value_bind. destruct (value m) as [a|e] eqn:E; [apply K; reflexivity|]. f_equal. apply H. exact E.
Qed.

Lemma tame_check_calculate beta gamma_beta : tame (check_calculate_gamma_beta beta gamma_beta).
Proof. unfold check_calculate_gamma_beta. tame_tac. Qed.
Lemma tame_check_composite cot down up : tame (check_composite_slope cot down up).
Proof. unfold check_composite_slope. tame_tac. Qed.
Lemma tame_berm_length Hm0 B cot down up : tame (calculate_berm_length Hm0 B cot down up).
Proof. unfold calculate_berm_length. apply tame_bind; [apply tame_check_composite|]. intros. cbv zeta. tame_tac. Qed.
Lemma tame_berm Hm0 z2p db B L : tame (calculate_influence_berm_gamma_b Hm0 z2p db B L).
Proof. unfold calculate_influence_berm_gamma_b, max_with, min_with, stacked_max, stacked_min. autounfold with arrays. tame_tac. Qed.

(** Slopes that are not composite *)
Lemma not_composite cot down up : missing down \/ missing up ->
  check_composite_slope cot down up = ret false \/ check_composite_slope cot down up = raise ValueError.
Proof.
  intros N. unfold check_composite_slope. destruct (all_nan cot && all_nan down)%bool; [auto|].
  destruct N as [N|N]; rewrite (missing_all _ N); [|rewrite andb_false_r]; left; reflexivity.
Qed.

(** The influence factor of the berm does not take arrays, not even with one entry. *)
Lemma berm_arrays Hm0 z2p db B L : Exists is_array [Hm0; z2p; db; B; L] -> stops (calculate_influence_berm_gamma_b Hm0 z2p db B L).
Proof.
  intros X. apply tame_raises; [apply tame_berm|]. intros r E. unfold calculate_influence_berm_gamma_b in E.
  apply step in E as (x & Ex & E). apply step in E as (rdh & Er & E). apply step in E as (rB & Eb & E).
  unfold max_with, stacked_max, stacked in E. apply step in E as (y & Ey & _).
  unfold min_with, stacked_min, stacked in Ey. apply step in Ey as (a & Ea & Ey).
  apply step in Ey as (one & Eo & Ey). injection Eo as <-. destruct a as [a|l]; [clear Ey|discriminate Ey].
  assert (U1 : uses (where_ (db <? #0) z2p (#2 * Hm0))%arr [shape db; shape z2p; shape Hm0]).
  { eapply uses_incl; [uses_tac|incl_tac]. }
  apply U1 in Ex. clear U1.
  assert (U2 : uses (where_ ((db >? #2 * Hm0) || (db <? - z2p)) #1 (#0.5 - #0.5 * acos (api * db / x)))%arr [shape db; shape Hm0; shape z2p]).
  { autounfold with arrays. eapply uses_incl; [uses_tac|incl_tac]. }
  apply U2 in Er. clear U2.
  assert (U3 : uses (B / L)%arr [shape B; shape L]) by (eapply uses_incl; [uses_tac|incl_tac]).
  apply U3 in Eb. clear U3.
  assert (U4 : uses (#1 - rB * (#1 - rdh))%arr [shape db; shape Hm0; shape z2p; shape B; shape L]).
  { eapply uses_incl; [uses_tac|incl_tac]. }
  apply U4 in Ea. clear U4. cbn [shape] in Ea.
  assert (K : forall s, stretches s None -> s = None) by (intros s [K|[(_ & K)|K]]; congruence).
  apply Exists_exists in X as (b & I & N). apply N. apply K. args_tac. cbn [In] in I. intuition (subst; assumption).
Qed.

Definition finite (x : num) : Prop := exists h, x = Fin h.

Lemma entries_place (a : nums) sh P i : Forall P (entries a) -> stretches (shape a) sh -> inside sh i -> P (place i a).
Proof.
  intros F S I. destruct (at_some _ _ _ S I) as (x & E). unfold place. rewrite E. rewrite Forall_forall in F. apply F. eapply at_entry. exact E.
Qed.

(** The search for the run-up on a composite slope computes the influence of the berm. *)
Lemma search_arrays rec (Hm0 Tmm10 down up B db f gb : nums) c1 c2 c3 c4 best t n :
  filled down -> filled up -> Forall finite (entries Hm0) -> (0 < t)%R -> Exists is_array [Hm0; db; B; down; up] ->
  stops (iteration_procedure_z2p_body rec Hm0 Tmm10 down up B db f gb c1 c2 c3 c4 best (Fin t) n).
Proof.
  intros FD FU FH T X. unfold iteration_procedure_z2p_body. set (sh := shape Hm0).
  assert (SH : stretches (shape Hm0) sh) by apply stretches_refl.
  name sh (#1.5 * Hm0)%arr (fun i => (#1.5 * place i Hm0)%num) [shape Hm0] e1.
  name sh (e1 + #2 * float (Fin t))%arr (fun i => (#1.5 * place i Hm0 + #2 * Fin t)%num) [shape Hm0] e0.
  unfold stops. apply (steps _ _ e1 _ Ee1). apply (steps _ _ e0 _ Ee0). cbn [z2p_iterations].
  name sh (aabs (e1 - e0))%arr (fun i => nabs (#1.5 * place i Hm0 - (#1.5 * place i Hm0 + #2 * Fin t))%num) (@nil (option nat)) ch.
  apply (steps _ _ ch _ Ech).
  assert (Z : sh = Some 0 \/ sh <> Some 0) by (destruct sh as [[|k]|]; [left|right|right]; congruence).
  destruct Z as [Z|Z].
  { assert (E : entries ch = []).
    { assert (Sch' : shape ch = Some 0).
      { assert (U : uses (aabs (e1 - e0))%arr [shape Hm0]) by (autounfold with arrays; eapply uses_incl; [uses_tac|incl_tac]).
        apply U in Ech. inversion Ech; subst. fold sh in H1. rewrite Z in *. apply stretches_antisym; assumption. }
      destruct ch as [y|[|y l]]; try discriminate. reflexivity. }
    rewrite value_bind. unfold greatest. rewrite E. reflexivity. }
  destruct (greatest_places sh ch _ (Fin t) Z Dch) as (g & Eg & G). apply (steps _ _ g _ Eg).
  assert (V : forall i, inside sh i -> nabs (#1.5 * place i Hm0 - (#1.5 * place i Hm0 + #2 * Fin t))%num = Fin (2 * t)).
  { intros i I. destruct (entries_place Hm0 sh finite i FH SH I) as (h & ->). cbn. f_equal. rewrite Rabs_left; lra. }
  rewrite (proj2 G).
  2:{ split; [intros i I; rewrite V by exact I; reflexivity|].
      exists 0. assert (I : inside sh 0) by (destruct sh as [[|k]|]; cbn; congruence || lia || exact Logic.I).
      split; [exact I|]. rewrite V by exact I. unfold ngt. cbn. apply Rltb_true. lra. }
  apply stops_then; [apply tame_berm_length|]. intros L EL.
  apply stops_first. apply berm_arrays.
  assert (UL : uses (calculate_berm_length Hm0 B anan down up) [shape Hm0; shape B; shape down; shape up]).
  { unfold calculate_berm_length. rewrite (composite_slope _ _ _ FD FU), bind_ret_l. cbv zeta. eapply uses_incl; [uses_tac|incl_tac]. }
  apply UL in EL. clear UL.
  assert (K : forall s, stretches s (shape L) -> s <> None -> is_array L).
  { intros s [K|[(K & N)|K]] M; [congruence|exact N|]. unfold is_array. congruence. }
  rewrite !Exists_cons in *. args_tac. unfold is_array in *. intuition eauto.
Qed.

(** The influence of the berm when it has a width *)
Lemma holds_zero (a : nums) : (forall w, one_number a w -> neqb w #0%num = false) ->
  value (holds (a =? lit 0)%arr) = Ok false \/ value (holds (a =? lit 0)%arr) = Err ValueError.
Proof.
  intros H. destruct a as [x|[|x [|y l]]].
  - left. unfold holds, cmp, lift2, value_of, lit. rewrite !bind_ret_l. cbn [bcast amap]. rewrite bind_ret_l. cbn. rewrite (H x eq_refl). reflexivity.
  - right. reflexivity.
  - left. unfold holds, cmp, lift2, value_of, lit. rewrite !bind_ret_l. cbn [bcast map]. rewrite bind_ret_l. cbn. rewrite (H x eq_refl). reflexivity.
  - right. reflexivity.
Qed.

Lemma berm_search_arrays rec (Hm0 Tmm10 cot B L db gb : nums) c1 c2 c3 c4 best f :
  tame (rec Hm0 Tmm10 gb (lit 1) f cot c1 c2 c3 c4 best) ->
  (forall w, one_number B w -> neqb w #0%num = false) -> (forall l, one_number L l -> neqb l #0%num = false) ->
  (forall z m, value (rec Hm0 Tmm10 gb (lit 1) f cot c1 c2 c3 c4 best) = Ok (z, m) -> Exists is_array [Hm0; z; db; B; L]) ->
  stops (iteration_procedure_gamma_b_body rec Hm0 Tmm10 cot B L db gb c1 c2 c3 c4 best f).
Proof.
  intros T HB HL HZ. unfold iteration_procedure_gamma_b_body, stops.
  destruct (holds_zero B HB) as [EB|EB]; [|rewrite value_bind, value_bind, EB; reflexivity].
  destruct (holds_zero L HL) as [EL|EL]; [|rewrite value_bind, value_bind, EB, EL; reflexivity].
  apply (steps _ _ false); [rewrite value_bind, EB; exact EL|].
  apply stops_then; [exact T|]. intros (z & m) Ez. cbn [fst]. apply stops_first. apply berm_arrays. eapply HZ. exact Ez.
Qed.
