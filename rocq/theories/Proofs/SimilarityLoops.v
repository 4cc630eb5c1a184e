(** Similarity of the iterations, of the wavelength and of the run-up recursion. *)
From Coq Require Import Reals Lra Lia Bool ZArith String List.
From Verif.Lib Require Import Num Monad RTac NTac.
From Verif.Spec Require Import Similarity Dispersion.
From Verif.Model Require Import CoreUtility CorePhysics.
From Verif.Model Require KramerBurcharth2004 EtemadShahidi2020 Jumelet2024 VanGent2025 RearVanGent2007 RunupTAW2002 RunupEurotop2018 Goda1985.
From Verif.Proofs Require Import Dispersion Similarity.
Import ListNotations.
Open Scope R_scope.

(** ** Iterations that stop when the change is small *)
Section Loops.
Variables l d : R.
Hypothesis S0 : scales l d.

Lemma kramer_iteration p q step' step tol n : (forall x, like l d p q (step' (sc l d p q x)) (step x)) -> forall x prev diff,
  like l d p q (KramerBurcharth2004.iteration step' (sc l d p q tol) n (sc l d p q x) (sc l d p q prev) (sc l d p q diff)) (KramerBurcharth2004.iteration step tol n x prev diff).
Proof.
  intros St. induction n as [|n IH]; intros x prev diff; cbn [KramerBurcharth2004.iteration].
  - destruct S0. rewrite (same_gt l d p q _ diff _ tol p q) by (apply like_sc || reflexivity). destruct (_ >? _)%num; apply like_sc.
  - rewrite (same_gt l d p q _ diff _ tol p q) by (apply like_sc || reflexivity). destruct (_ >? _)%num; [|apply like_sc].
    rewrite (St x). replace (nabs (sc l d p q (step x) - sc l d p q prev)) with (sc l d p q (nabs (step x - prev))); [apply IH|].
    symmetry. apply like_abs. eapply like_sub; [apply like_sc|apply like_sc|reflexivity|reflexivity].
Qed.

Lemma wind_iteration step' step tol n : (forall x, step' x = step x) -> forall x diff, VanGent2025.wind_iterations step' tol n x diff = VanGent2025.wind_iterations step tol n x diff.
Proof.
  intros St. induction n as [|n IH]; intros x diff; cbn [VanGent2025.wind_iterations]; [reflexivity|]. destruct (_ >? _)%num; [|reflexivity].
  rewrite (St x). apply IH.
Qed.

Lemma jumelet_loop step' step T c tol n : (forall x, like l d 1 0 (step' x) (step x)) -> forall prev diff ksi cur,
  Jumelet2024.wave_height_loop step' (sc l d (1 / 2) 0 T) c (sc l d 1 0 tol) n (sc l d 1 0 prev) (sc l d 1 0 diff) ksi (option_map (sc l d 1 0) cur)
  = option_map (sc l d 1 0) (Jumelet2024.wave_height_loop step T c tol n prev diff ksi cur).
Proof.
  intros St. induction n as [|n IH]; intros prev diff ksi cur; cbn [Jumelet2024.wave_height_loop].
  - rewrite (same_gt l d 1 0 _ diff _ tol 1 0) by (apply like_sc || reflexivity). destruct (_ >? _)%num; reflexivity.
  - rewrite (same_gt l d 1 0 _ diff _ tol 1 0) by (apply like_sc || reflexivity). destruct (_ >? _)%num; [|reflexivity].
    rewrite (St ksi), <- IH. f_equal.
    + apply like_abs. eapply like_sub; [apply like_sc|apply like_sc|reflexivity|reflexivity].
    + plain.
Qed.

Lemma etemad_loop step' step core tol n : (forall x, like l d 1 0 (step' x) (step x)) -> forall prev diff cp cur,
  EtemadShahidi2020.diameter_loop step' (sc l d 1 0 core) (sc l d 1 0 tol) n (sc l d 1 0 prev) (sc l d 1 0 diff) cp (option_map (sc l d 1 0) cur)
  = option_map (sc l d 1 0) (EtemadShahidi2020.diameter_loop step core tol n prev diff cp cur).
Proof.
  intros St. induction n as [|n IH]; intros prev diff cp cur; cbn [EtemadShahidi2020.diameter_loop].
  - rewrite (same_gt l d 1 0 _ diff _ tol 1 0) by (apply like_sc || reflexivity). destruct (_ >? _)%num; reflexivity.
  - rewrite (same_gt l d 1 0 _ diff _ tol 1 0) by (apply like_sc || reflexivity). destruct (_ >? _)%num; [|reflexivity].
    rewrite (St cp), <- IH. f_equal.
    + apply like_abs. eapply like_sub; [apply like_sc|apply like_sc|reflexivity|reflexivity].
    + plain.
Qed.

Lemma rear_search z' z H' H tol n : (forall x, like l d 1 0 (z' (sc l d 1 0 x)) (z x)) -> (forall x y, like l d 1 0 (H' (sc l d 1 0 x) (sc l d 1 0 y)) (H x y)) -> forall x y cur,
  RearVanGent2007.search z' H' (sc l d 1 0 tol) n (sc l d 1 0 x) (sc l d 1 0 y) (option_map (sc l d 1 0) cur)
  = (let '(k, h, c) := RearVanGent2007.search z H tol n x y cur in (k, sc l d 1 0 h, option_map (sc l d 1 0) c)).
Proof.
  intros Z HH. induction n as [|n IH]; intros x y cur; cbn [RearVanGent2007.search]; [reflexivity|].
  rewrite (same_gt l d 1 0 _ (nabs (x - y)) _ tol 1 0); [|apply like_abs; eapply like_sub; [apply like_sc|apply like_sc|reflexivity|reflexivity]|apply like_sc|reflexivity|reflexivity].
  destruct (_ >? _)%num; [|reflexivity]. rewrite (Z x), (HH x (z x)). exact (IH (H x (z x)) x (Some (z x))).
Qed.

Definition searched (s : nat * num * option num) : nat * num * option num := let '(k, h, c) := s in (k, sc l d 1 0 h, option_map (sc l d 1 0) c).
Lemma search_at z' z H' H tol' tol n x' x y' y : like l d 1 0 tol' tol -> like l d 1 0 x' x -> like l d 1 0 y' y ->
  (forall x, like l d 1 0 (z' (sc l d 1 0 x)) (z x)) -> (forall x y, like l d 1 0 (H' (sc l d 1 0 x) (sc l d 1 0 y)) (H x y)) ->
  RearVanGent2007.search z' H' tol' n x' y' None = searched (RearVanGent2007.search z H tol n x y None).
Proof. intros -> -> -> Z HH. exact (rear_search z' z H' H tol n Z HH x y None). Qed.

(** ** The wavelength *)
Lemma wavelength_similar disper T h g : solves_dispersion disper -> 0 < T -> 0 < h -> 0 < g ->
  like l d 1 0 (local_wavelength disper (sc l d (1 / 2) 0 (Fin T)) (sc l d 1 0 (Fin h)) (Fin g)) (local_wavelength disper (Fin T) (Fin h) (Fin g)).
Proof.
  intros Q HT Hh Hg. destruct S0 as [L D]. rewrite <- (time_sc l d) by assumption. rewrite <- (distance_sc l d) by assumption. unfold like.
  rewrite <- (distance_sc l d) by assumption. unfold time, distance, local_wavelength, two_pi. cbn [scaled npi nmul].
  pose proof PI_RGT_0. pose proof (sqrt_lt_R0 l L). pose proof (sqrt_sqrt l (Rlt_le _ _ L)) as SS.
  assert (0 < sqrt l * T) by (apply Rmult_lt_0_compat; assumption).
  assert (DV : forall x y, y <> 0 -> (Fin x / Fin y)%num = Fin (x / y)) by (intros x y N; cbn; rewrite Reqb_false by exact N; reflexivity).
  rewrite !DV by lra.
  destruct (Q (2 * PI / T) h g) as (k & K & E & R); [rpos|assumption|assumption|].
  destruct (Q (2 * PI / (sqrt l * T)) (l * h) g) as (k' & K' & E' & R'); [rpos|rpos|assumption|].
  rewrite E, E', !DV by lra. cbn. f_equal.
  assert (k' = k / l) as ->; [|field; split; lra].
  apply (dispersion_unique (2 * PI / (sqrt l * T)) (l * h) g); [rpos|assumption|assumption|rpos|assumption|].
  unfold dispersion in *. replace (k / l * (l * h)) with (k * h) by (field; lra).
  replace ((2 * PI / (sqrt l * T)) ^ 2) with ((2 * PI / T) ^ 2 / (sqrt l * sqrt l)) by (field; lra). rewrite R, SS. field. lra.
Qed.

(** ** Run-up of TAW *)
Definition runups (w : bool) (r' r : num -> num -> num -> num -> num -> num -> num -> num -> num -> num -> bool -> M (num * bool)) : Prop :=
  forall H T gb gB gf c c1 c2 c3 c4 fit, sim w (both (sc l d 1 0) same) (r' (sc l d 1 0 H) (sc l d (1 / 2) 0 T) gb gB gf c c1 c2 c3 c4 fit) (r H T gb gB gf c c1 c2 c3 c4 fit).

Ltac known_sim ::= lazymatch goal with
  | |- sim _ _ _ (check_usage_Dn50_or_M50 _ _ _) => eapply usage_sim; [eassumption|eassumption]
  | R : runups _ ?r' ?r |- sim _ _ (?r' _ _ _ _ _ _ _ _ _ _ _) (?r _ _ _ _ _ _ _ _ _ _ _) => apply R
  end.

Lemma z2p_sim w r' r cd cu B db gf gb c1 c2 c3 c4 fit tol H T n : runups w r' r -> forall x y,
  sim w (sc l d 1 0)
    (RunupTAW2002.z2p_iterations r' (sc l d 1 0 H) (sc l d (1 / 2) 0 T) cd cu (sc l d 1 0 B) (sc l d 1 0 db) gf gb c1 c2 c3 c4 fit (sc l d 1 0 tol) n (sc l d 1 0 x) (sc l d 1 0 y))
    (RunupTAW2002.z2p_iterations r H T cd cu B db gf gb c1 c2 c3 c4 fit tol n x y).
Proof.
  intros R. induction n as [|n IH]; intros x y; cbn [RunupTAW2002.z2p_iterations]; [sims|].
  eapply sim_if; [bsame| |sims]. eapply sim_bind; [sims|]. intros LB. cbv beta.
  replace (RunupTAW2002.calculate_influence_berm_gamma_b (sc l d 1 0 H) (sc l d 1 0 x) (sc l d 1 0 db) (sc l d 1 0 B) (sc l d (0 + 1 + 0) (0 + 0 + 0) LB))
    with (RunupTAW2002.calculate_influence_berm_gamma_b H x db B LB) by (symmetry; plain).
  replace (RunupTAW2002.determine_average_slope (sc l d 1 0 H) (sc l d 1 0 x) cd cu (sc l d 1 0 B) (sc l d 1 0 db))
    with (RunupTAW2002.determine_average_slope H x cd cu B db) by (symmetry; plain).
  eapply sim_bind; [apply R|]. intros [z b]. unfold both, same. cbn [fst snd]. apply IH.
Qed.

Lemma z2p_at w r' r cd cu B' B db' db gf gb c1 c2 c3 c4 fit tol' tol H' H T' T n x' x y' y : runups w r' r -> like l d 1 0 H' H -> like l d (1 / 2) 0 T' T -> like l d 1 0 B' B -> like l d 1 0 db' db ->
  like l d 1 0 tol' tol -> like l d 1 0 x' x -> like l d 1 0 y' y ->
  sim w (sc l d 1 0) (RunupTAW2002.z2p_iterations r' H' T' cd cu B' db' gf gb c1 c2 c3 c4 fit tol' n x' y') (RunupTAW2002.z2p_iterations r H T cd cu B db gf gb c1 c2 c3 c4 fit tol n x y).
Proof. intros R -> -> -> -> -> -> ->. apply z2p_sim, R. Qed.

Lemma runups_at w r' r H' H T' T gb' gb gB' gB gf' gf c' c c1 c2 c3 c4 fit : runups w r' r -> like l d 1 0 H' H -> like l d (1 / 2) 0 T' T ->
  gb' = gb -> gB' = gB -> gf' = gf -> c' = c -> sim w (both (sc l d 1 0) same) (r' H' T' gb' gB' gf' c' c1 c2 c3 c4 fit) (r H T gb gB gf c c1 c2 c3 c4 fit).
Proof. intros R -> -> -> -> -> ->. apply R. Qed.

Ltac known_sim ::= lazymatch goal with
  | |- sim _ _ _ (check_usage_Dn50_or_M50 _ _ _) => eapply usage_sim; [eassumption|eassumption]
  | R : runups _ ?r' ?r |- sim _ _ (?r' _ _ _ _ _ _ _ _ _ _ _) (?r _ _ _ _ _ _ _ _ _ _ _) => eapply (runups_at _ r' r); [exact R|chk|chk|plain|plain|plain|plain]
  end.

Lemma gamma_b_sim w r' r H T c B LB db gb c1 c2 c3 c4 fit gf : runups w r' r ->
  sim w same (RunupTAW2002.iteration_procedure_gamma_b_body r' (sc l d 1 0 H) (sc l d (1 / 2) 0 T) c (sc l d 1 0 B) (sc l d 1 0 LB) (sc l d 1 0 db) gb c1 c2 c3 c4 fit gf)
    (RunupTAW2002.iteration_procedure_gamma_b_body r H T c B LB db gb c1 c2 c3 c4 fit gf).
Proof. intros R. sims. Qed.
Lemma gamma_b_at w r' r H' H T' T c' c B' B LB' LB db' db gb c1 c2 c3 c4 fit gf : runups w r' r -> like l d 1 0 H' H -> like l d (1 / 2) 0 T' T -> c' = c ->
  like l d 1 0 B' B -> like l d 1 0 LB' LB -> like l d 1 0 db' db ->
  sim w same (RunupTAW2002.iteration_procedure_gamma_b_body r' H' T' c' B' LB' db' gb c1 c2 c3 c4 fit gf) (RunupTAW2002.iteration_procedure_gamma_b_body r H T c B LB db gb c1 c2 c3 c4 fit gf).
Proof. intros R -> -> -> -> -> ->. apply gamma_b_sim, R. Qed.

(** Without a composite slope no absolute tolerance is involved. *)
Lemma composite_straight c cd cu : straight cd cu -> RunupTAW2002.check_composite_slope c cd cu = if isnan c && isnan cd then raise ValueError else ret false.
Proof. intros [E|E]; unfold RunupTAW2002.check_composite_slope; rewrite E; [|rewrite andb_false_r]; reflexivity. Qed.

Lemma composite_bind {A} w (h : A -> A) c cd cu k' k : straight cd cu -> sim w h (k' false) (k false) ->
  sim w h (bind (RunupTAW2002.check_composite_slope c cd cu) k') (bind (RunupTAW2002.check_composite_slope c cd cu) k).
Proof. intros St K. rewrite (composite_straight c cd cu St). destruct (isnan c && isnan cd); [split; reflexivity|]. rewrite !bind_ret_l. exact K. Qed.
Ltac known_bind ::= lazymatch goal with |- sim _ _ _ (bind (RunupTAW2002.check_composite_slope _ _ _) _) => apply composite_bind; [eassumption|cbv beta iota] end.

Ltac known_sim ::= lazymatch goal with
  | |- sim _ _ _ (check_usage_Dn50_or_M50 _ _ _) => eapply usage_sim; [eassumption|eassumption]
  | R : runups _ ?r' ?r |- sim _ _ (?r' _ _ _ _ _ _ _ _ _ _ _) (?r _ _ _ _ _ _ _ _ _ _ _) => eapply (runups_at _ r' r); [exact R|chk|chk|plain|plain|plain|plain]
  | R : runups _ ?r' ?r |- sim _ _ (RunupTAW2002.iteration_procedure_gamma_b_body ?r' _ _ _ _ _ _ _ _ _ _ _ _ _) _ => eapply (gamma_b_at _ r' r); [exact R|chk|chk|plain|chk|chk|chk]
  end.

Lemma dimensionless_sim w r' r H T beta gb gB gf B db c cd cu c1 c2 c3 c4 fit : runups w r' r -> straight cd cu ->
  sim w same (RunupTAW2002.dimensionless_body r' (sc l d 1 0 H) (sc l d (1 / 2) 0 T) beta gb gB gf (sc l d 1 0 B) (sc l d 1 0 db) c cd cu c1 c2 c3 c4 fit)
    (RunupTAW2002.dimensionless_body r H T beta gb gB gf B db c cd cu c1 c2 c3 c4 fit).
Proof.
  intros R St. unfold RunupTAW2002.dimensionless_body. destruct (RunupTAW2002.best_fit_coefficients fit c1 c2 c3 c4) as [[[k1 k2] k3] k4].
  eapply sim_bind; [sims|]. intros y. unfold same at 1 2. cbv zeta. rewrite (composite_straight c cd cu St).
  destruct (isnan c && isnan cd); [split; reflexivity|]. rewrite !bind_ret_l. sims.
Qed.

Lemma runup_sim w n : forall H T beta gb gB gf B db c cd cu c1 c2 c3 c4 fit, straight cd cu ->
  sim w (both (sc l d 1 0) same)
    (RunupTAW2002.calculate_wave_runup_height_z2p_upto n (sc l d 1 0 H) (sc l d (1 / 2) 0 T) beta gb gB gf (sc l d 1 0 B) (sc l d 1 0 db) c cd cu c1 c2 c3 c4 fit)
    (RunupTAW2002.calculate_wave_runup_height_z2p_upto n H T beta gb gB gf B db c cd cu c1 c2 c3 c4 fit).
Proof.
  induction n as [|n IH]; intros; cbn [RunupTAW2002.calculate_wave_runup_height_z2p_upto]; [split; reflexivity|].
  eapply sim_bind; [apply dimensionless_sim; [|assumption]|].
  - intros Hm Tm gb0 gB0 gf0 c0 k1 k2 k3 k4 fit0. cbv beta.
    pose proof (IH Hm Tm NaN gb0 gB0 gf0 (Fin 0) (Fin 0) c0 NaN NaN k1 k2 k3 k4 fit0 (or_introl eq_refl)) as Q.
    rewrite <- !(like_zero l d 1 0) in Q. exact Q.
  - intros [z b]. unfold same. sims.
Qed.
Lemma runups_sim w n : runups w (RunupTAW2002.runup_upto n) (RunupTAW2002.runup_upto n).
Proof.
  intros Hm Tm gb0 gB0 gf0 c0 k1 k2 k3 k4 fit0. unfold RunupTAW2002.runup_upto.
  pose proof (runup_sim w n Hm Tm NaN gb0 gB0 gf0 (Fin 0) (Fin 0) c0 NaN NaN k1 k2 k3 k4 fit0 (or_introl eq_refl)) as Q.
  rewrite <- !(like_zero l d 1 0) in Q. exact Q.
Qed.
End Loops.

(** ** Functions with an iteration *)
Lemma at_eq l d x' x : scales l d -> x' = x -> like l d 0 0 x' x. Proof. intros S ->. apply at_same, S. Qed.
Lemma f_equal_wind step' step tol n x' x diff : (forall x, step' x = step x) -> x' = x -> VanGent2025.wind_iterations step' tol n x' diff = VanGent2025.wind_iterations step tol n x diff.
Proof. intros St ->. apply wind_iteration, St. Qed.
Lemma iteration_at l d step' step tol' tol n x' x prev' prev diff' diff : scales l d -> like l d 1 0 tol' tol -> like l d 1 0 x' x -> like l d 1 0 prev' prev -> like l d 1 0 diff' diff ->
  (forall x, like l d 1 0 (step' (sc l d 1 0 x)) (step x)) -> like l d 1 0 (KramerBurcharth2004.iteration step' tol' n x' prev' diff') (KramerBurcharth2004.iteration step tol n x prev diff).
Proof. intros S -> -> -> -> St. apply kramer_iteration; assumption. Qed.

Ltac given := first [eassumption|left; reflexivity|left; eassumption|right; eassumption].
Ltac known ::= lazymatch goal with
  | |- like ?l ?d _ _ _ (VanGent2025.wind_iterations _ _ _ _ _) => eapply at_eq; [eassumption|apply f_equal_wind; [intro; plain|plain]]
  | |- like ?l ?d _ _ _ (KramerBurcharth2004.iteration _ _ _ _ _ _) => eapply iteration_at; [eassumption|chk|chk|chk|chk|intro; chk]
  end.

Section Functions.
Variables (l d : R) (w : bool).
Hypothesis S0 : scales l d.

Lemma bound_sim x' x : x' = option_map (sc l d 1 0) x -> sim w (sc l d 1 0) (EtemadShahidi2020.bound x') (EtemadShahidi2020.bound x).
Proof. intros ->. destruct x; split; reflexivity. Qed.
Lemma option_sim (x' x : option num) : x' = option_map (sc l d 1 0) x ->
  sim w (sc l d 1 0) (match x' with Some y => ret y | None => raise UnboundLocalError end) (match x with Some y => ret y | None => raise UnboundLocalError end).
Proof. intros ->. destruct x; split; reflexivity. Qed.
Lemma diameter_at step' step core' core tol' tol n cp : like l d 1 0 core' core -> like l d 1 0 tol' tol -> (forall x, like l d 1 0 (step' x) (step x)) ->
  EtemadShahidi2020.diameter_loop step' core' tol' n PInf PInf cp None = option_map (sc l d 1 0) (EtemadShahidi2020.diameter_loop step core tol n PInf PInf cp None).
Proof. intros -> -> St. exact (etemad_loop l d S0 step' step core tol n St PInf PInf cp None). Qed.
Lemma wave_height_at step' step T' T c tol' tol n prev' prev ksi' ksi : like l d (1 / 2) 0 T' T -> like l d 1 0 tol' tol -> like l d 1 0 prev' prev -> ksi' = ksi -> (forall x, like l d 1 0 (step' x) (step x)) ->
  Jumelet2024.wave_height_loop step' T' c tol' n prev' PInf ksi' None = option_map (sc l d 1 0) (Jumelet2024.wave_height_loop step T c tol n prev PInf ksi None).
Proof. intros -> -> -> -> St. exact (jumelet_loop l d S0 step' step T c tol n St prev PInf ksi None). Qed.
End Functions.

(** With the densities unchanged *)
Lemma usage_length w l Dn M rho : scales l 1 -> sim w (sc l 1 1 0) (check_usage_Dn50_or_M50 (sc l 1 1 0 Dn) (sc l 1 3 1 M) rho) (check_usage_Dn50_or_M50 Dn M rho).
Proof.
  intros S. pose proof (usage_sim w l 1 Dn M rho S (or_introl eq_refl)) as Q. rewrite (sc_1 l 0 1 0) in Q. rewrite <- (at_same l 1 rho S) in Q. exact Q.
Qed.
Ltac known_sim ::= lazymatch goal with
  | |- sim _ _ (check_usage_Dn50_or_M50 _ _ (sc _ _ _ _ _)) (check_usage_Dn50_or_M50 _ _ _) => eapply usage_sim; [eassumption|given]
  | |- sim _ _ (check_usage_Dn50_or_M50 _ _ _) (check_usage_Dn50_or_M50 _ _ _) => eapply usage_length; eassumption
  | |- sim _ _ (RunupTAW2002.iteration_procedure_gamma_b_body (RunupTAW2002.runup_upto ?n) _ _ _ _ _ _ _ _ _ _ _ _ _) _ =>
      eapply gamma_b_at; [eassumption|apply runups_sim; eassumption|chk|chk|plain|chk|chk|chk]
  | |- sim _ _ (RunupTAW2002.z2p_iterations (RunupTAW2002.runup_upto ?n) _ _ _ _ _ _ _ _ _ _ _ _ _ _ _ _ _) _ =>
      eapply z2p_at; [eassumption|apply runups_sim; eassumption|chk|chk|chk|chk|chk|chk|chk]
  | |- sim _ _ (RunupTAW2002.dimensionless_body (RunupTAW2002.runup_upto ?n) _ _ _ _ _ _ _ _ _ _ _ _ _ _ _ _) _ => eapply dimensionless_sim; [eassumption|apply runups_sim; eassumption|eassumption]
  | |- sim _ _ (RunupTAW2002.calculate_wave_runup_height_z2p_upto ?n _ _ _ _ _ _ _ _ _ _ _ _ _ _ _ _) _ => eapply runup_sim; eassumption
  | |- sim _ _ (EtemadShahidi2020.bound _) _ => apply bound_sim; eapply diameter_at; [eassumption|chk|chk|intro; chk]
  | |- sim _ _ _ ?m => lazymatch m with context [Jumelet2024.wave_height_loop] => eapply option_sim, wave_height_at; [eassumption|chk|chk|chk|plain|intro; chk] end
  end.
Ltac known_bind ::= lazymatch goal with |- sim _ _ _ (bind (RunupTAW2002.check_composite_slope _ _ _) _) => apply composite_bind; [eassumption|cbv beta iota] end.
Ltac pure := lazymatch goal with |- like _ _ _ _ _ _ => chk | |- _ => result end.
Ltac rear l d := eapply sim_bind; [sims|intros ?]; unfold same;
  lazymatch goal with |- sim _ _ (let (_, _) := ?s' in _) (let (_, _) := ?s in _) =>
    let E := fresh "E" in assert (E : s' = searched l d s) by (eapply search_at; [chk|chk|chk|intros; chk|intros; chk]); rewrite E; clear E;
    let k := fresh "k" in let h := fresh "h" in let c := fresh "c" in destruct s as [[k h] c]; unfold searched; destruct c; cbn [option_map]; sims end.
