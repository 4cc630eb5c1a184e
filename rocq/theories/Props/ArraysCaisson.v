(** Property C69: overtopping of caissons, Van Gent (2021), with arrays. *)
From Coq Require Import Reals Lra Lia List Bool Arith.
From Verif.Lib Require Import Num Monad Arr ArrFlags ArrLoop RTac NTac.
From Verif.Spec Require Import Arrays ArrayFlags ArrayStacks ArrayWarnings ArrayCalls ArrayOne.
From Verif.Model Require Import CoreUtility ArrCore.
From Verif.Model Require CorePhysics VanGent2021Caisson ArrVanGent2021Caisson.
From Verif.Proofs Require Import Core CheckTac Arrays ArrayFlags ArrayTaw ArrayStacks ArrayWarnings ArrayCalls ArrayOne.
Import ListNotations.
Open Scope nat_scope.

Lemma fitted_coefficients c short crossing parapet : fitted c short crossing parapet ->
  exists a b cb gp, VanGent2021Caisson.determine_coefficients c short crossing parapet = ret (a, b, cb, gp).
Proof.
  intros (C & P). unfold VanGent2021Caisson.determine_coefficients.
  destruct C as [-> | ->]; nfin; [rewrite Reqb_true by reflexivity|rewrite Reqb_false by lra; rewrite Reqb_true by reflexivity];
    destruct short, crossing; cbn [orb]; try (do 4 eexists; reflexivity); rewrite (P eq_refl eq_refl); do 4 eexists; reflexivity.
Qed.

#[local] Hint Unfold ArrVanGent2021Caisson.calculate_influence_oblique_waves_gamma_beta ArrVanGent2021Caisson.check_validity_range : arrays.
#[local] Hint Unfold VanGent2021Caisson.calculate_influence_oblique_waves_gamma_beta VanGent2021Caisson.check_validity_range : scalars.

Lemma oblique_expression beta gp cb :
  expression [beta] (ArrVanGent2021Caisson.calculate_influence_oblique_waves_gamma_beta beta gp cb)
    (fun i => VanGent2021Caisson.calculate_influence_oblique_waves_gamma_beta (place i beta) gp cb).
Proof. expression_tac. Qed.

Definition scalar_beta (beta gamma_beta gp cb : num) : num :=
  if isnan gamma_beta then VanGent2021Caisson.calculate_influence_oblique_waves_gamma_beta beta gp cb else gamma_beta.

Lemma beta_value beta gamma_beta ob gp cb : factor_or gamma_beta beta ob -> exists gb : nums,
  value (ArrVanGent2021Caisson.factor_beta beta gamma_beta gp cb) = Ok gb /\ shape gb = shape ob
  /\ forall sh i, stretches (shape ob) sh -> inside sh i -> place i gb = scalar_beta (place i beta) (place i gamma_beta) gp cb.
Proof.
  intros (x & O & C). unfold ArrVanGent2021Caisson.factor_beta. rewrite (one_is_nan _ _ O), bind_ret_l.
  destruct C as [(N & ->)|(N & ->)]; rewrite N.
  - exists gamma_beta. split; [reflexivity|]. split; [reflexivity|]. intros sh i S I. unfold scalar_beta. rewrite (one_place _ _ i O), N. reflexivity.
  - pose proof (oblique_expression beta gp cb) as X.
    assert (C : common [beta] (shape beta)).
    { split; [constructor; [apply stretches_refl|constructor]|]. right. left. reflexivity. }
    destruct (expression_whole _ _ _ X _ C) as (gb & E & S & V).
    exists gb. split; [exact E|]. split; [exact S|]. intros sh i Sb I. unfold scalar_beta. rewrite (one_place gamma_beta _ i O), N.
    destruct X as (D & _). destruct (D sh ltac:(constructor; [exact Sb|constructor])) as (gb' & E' & S' & V').
    pose proof (eq_trans (eq_sym E) E') as J. injection J as <-. unfold place at 1. rewrite (V' i I). reflexivity.
Qed.

Section Calls.
Variables (Hm0 r beta gamma_beta Hsw ob : nums) (c cs g : num) (short crossing parapet : bool).
Hypothesis FT : fitted c short crossing parapet.
Hypothesis SW : swell_ok crossing Hsw.
Hypothesis OB : factor_or gamma_beta beta ob.

Lemma swell_array : ArrVanGent2021Caisson.swell_coefficient crossing cs Hsw = ret (if crossing then cs else Fin 0).
Proof.
  unfold ArrVanGent2021Caisson.swell_coefficient. destruct crossing; [|reflexivity]. destruct (SW eq_refl) as (x & O & N).
  cbn [negb]. rewrite (one_is_nan _ _ O), bind_ret_l, N. reflexivity.
Qed.
Lemma swell_at i : VanGent2021Caisson.swell_coefficient crossing cs (place i Hsw) = ret (if crossing then cs else Fin 0).
Proof.
  unfold VanGent2021Caisson.swell_coefficient. destruct crossing; [|reflexivity]. destruct (SW eq_refl) as (x & O & N).
  cbn [negb]. rewrite (one_place _ _ i O), N. reflexivity.
Qed.

Ltac parts a b cb gp gb E V :=
  destruct (fitted_coefficients _ _ _ _ FT) as (a & b & cb & gp & FC); destruct (beta_value beta gamma_beta ob gp cb OB) as (gb & E & S & V).

Definition q_expr (a b gp : num) (gb : nums) : M nums :=
  (float a * aexp (- (float b / (gb * float gp)) * apow ((r - float (if crossing then cs else Fin 0) * Hsw) / Hm0) (float c)))%arr.
Definition q_at (a b gp : num) (gb : nums) (i : nat) : num :=
  (a * nexp (- (b / (place i gb * gp)) * npow ((place i r - (if crossing then cs else Fin 0) * place i Hsw) / place i Hm0) c))%num.
Definition Rc_expr (a b gp : num) (gb : nums) : M nums :=
  (apow (alog ((r / asqrt (float g * apow Hm0 #3)) * (#1 / float a)) * (- gb * float gp / float b)) (#1 / float c)
   + float (if crossing then cs else Fin 0) * Hsw / Hm0)%arr.
Definition Rc_at (a b gp : num) (gb : nums) (i : nat) : num :=
  (npow (nlog ((place i r / nsqrt (g * npow (place i Hm0) #3)) * (#1 / a)) * (- place i gb * gp / b)) (#1 / c)
   + (if crossing then cs else Fin 0) * place i Hsw / place i Hm0)%num.

Let args := [Hm0; r; ob; Hsw].

Lemma q_expression a b gp gb : shape gb = shape ob -> expression args (q_expr a b gp gb) (q_at a b gp gb).
Proof.
  intros S. apply (shapes_expression [Hm0; r; gb; Hsw] _ _ (q_at a b gp gb)); [cbn [map args]; rewrite S; reflexivity| |intros; reflexivity].
  unfold q_expr, q_at. expression_tac.
Qed.
Lemma Rc_expression a b gp gb : shape gb = shape ob -> expression args (Rc_expr a b gp gb) (Rc_at a b gp gb).
Proof.
  intros S. apply (shapes_expression [Hm0; r; gb; Hsw] _ _ (Rc_at a b gp gb)); [cbn [map args]; rewrite S; reflexivity| |intros; reflexivity].
  unfold Rc_expr, Rc_at. expression_tac.
Qed.

Lemma q_call a b cb gp gb : VanGent2021Caisson.determine_coefficients c short crossing parapet = ret (a, b, cb, gp) ->
  value (ArrVanGent2021Caisson.factor_beta beta gamma_beta gp cb) = Ok gb -> shape gb = shape ob ->
  value (ArrVanGent2021Caisson.calculate_dimensionless_overtopping_discharge_q Hm0 r beta gamma_beta Hsw c cs short crossing parapet) = value (q_expr a b gp gb).
Proof.
  intros FC E S. unfold ArrVanGent2021Caisson.calculate_dimensionless_overtopping_discharge_q. rewrite FC, bind_ret_l, swell_array, bind_ret_l.
  apply (steps _ _ gb _ E).
  apply (checked_value args (q_expr a b gp gb) (q_at a b gp gb) (fun q => ArrVanGent2021Caisson.check_validity_range Hm0 anan beta r q)); [apply q_expression, S|].
  intros sh q F Sq. unfold args in F. args_tac. autounfold with arrays. unfold anan.
  assert (W : widens sh sh) by apply stretches_refl. runs_tac.
Qed.

Lemma Rc_call a b cb gp gb : VanGent2021Caisson.determine_coefficients c short crossing parapet = ret (a, b, cb, gp) ->
  value (ArrVanGent2021Caisson.factor_beta beta gamma_beta gp cb) = Ok gb -> shape gb = shape ob ->
  value (ArrVanGent2021Caisson.calculate_dimensionless_crest_freeboard Hm0 r beta gamma_beta Hsw c cs short crossing parapet g) = value (Rc_expr a b gp gb).
Proof.
  intros FC E S. unfold ArrVanGent2021Caisson.calculate_dimensionless_crest_freeboard. rewrite FC, bind_ret_l, swell_array, bind_ret_l.
  apply (steps _ _ gb _ E).
  change (value (Rd <- Rc_expr a b gp gb ;; (Rc <- Rd * Hm0 ;; ArrVanGent2021Caisson.check_validity_range Hm0 anan beta Rc anan ;; ret Rd))%arr = value (Rc_expr a b gp gb)).
  rewrite <- (checked_value args (Rc_expr a b gp gb) (Rc_at a b gp gb) (fun Rd => (Rc <- Rd * Hm0 ;; ArrVanGent2021Caisson.check_validity_range Hm0 anan beta Rc anan)%arr)); [|apply Rc_expression, S|].
  - rewrite !value_bind. destruct (value (Rc_expr a b gp gb)) as [Rd|]; [|reflexivity]. rewrite !value_bind. destruct (value (Rd * Hm0)%arr); [|reflexivity]. rewrite value_bind. reflexivity.
  - intros sh q F Sq. unfold args in F. args_tac. autounfold with arrays. unfold anan.
    assert (W : widens sh sh) by apply stretches_refl. runs_tac.
Qed.

Theorem C69_q_diml_places : place_by_place args
  (ArrVanGent2021Caisson.calculate_dimensionless_overtopping_discharge_q Hm0 r beta gamma_beta Hsw c cs short crossing parapet)
  (fun at_ => value (VanGent2021Caisson.calculate_dimensionless_overtopping_discharge_q (at_ Hm0) (at_ r) (at_ beta) (at_ gamma_beta) (at_ Hsw) c cs short crossing parapet)).
Proof.
  parts a b cb gp gb E V. apply (place_by_place_intro _ _ (q_expr a b gp gb) (q_at a b gp gb)); [apply (q_call _ _ _ _ _ FC E S)|apply q_expression, S|].
  intros sh i F I. unfold args in F. args_tac. unfold VanGent2021Caisson.calculate_dimensionless_overtopping_discharge_q. rewrite FC, bind_ret_l, swell_at, bind_ret_l. cbv zeta.
  fold (scalar_beta (place i beta) (place i gamma_beta) gp cb). rewrite <- (V sh i) by assumption.
  unfold VanGent2021Caisson.check_validity_range. mchecks. reflexivity.
Qed.

Theorem C69_Rc_diml_places : place_by_place args
  (ArrVanGent2021Caisson.calculate_dimensionless_crest_freeboard Hm0 r beta gamma_beta Hsw c cs short crossing parapet g)
  (fun at_ => value (VanGent2021Caisson.calculate_dimensionless_crest_freeboard (at_ Hm0) (at_ r) (at_ beta) (at_ gamma_beta) (at_ Hsw) c cs short crossing parapet g)).
Proof.
  parts a b cb gp gb E V. apply (place_by_place_intro _ _ (Rc_expr a b gp gb) (Rc_at a b gp gb)); [apply (Rc_call _ _ _ _ _ FC E S)|apply Rc_expression, S|].
  intros sh i F I. unfold args in F. args_tac. unfold VanGent2021Caisson.calculate_dimensionless_crest_freeboard. rewrite FC, bind_ret_l, swell_at, bind_ret_l. cbv zeta.
  fold (scalar_beta (place i beta) (place i gamma_beta) gp cb). rewrite <- (V sh i) by assumption.
  unfold VanGent2021Caisson.check_validity_range. mchecks. reflexivity.
Qed.

Theorem C69_q_places : place_by_place args
  (ArrVanGent2021Caisson.calculate_overtopping_discharge_q Hm0 r beta gamma_beta Hsw c cs short crossing parapet g)
  (fun at_ => value (VanGent2021Caisson.calculate_overtopping_discharge_q (at_ Hm0) (at_ r) (at_ beta) (at_ gamma_beta) (at_ Hsw) c cs short crossing parapet g)).
Proof.
  parts a b cb gp gb E V.
  apply (place_by_place_intro _ _ (q_expr a b gp gb * asqrt (float g * apow Hm0 #3))%arr (fun i => q_at a b gp gb i * nsqrt (g * npow (place i Hm0) #3))%num).
  - unfold ArrVanGent2021Caisson.calculate_overtopping_discharge_q. rewrite value_bind, (q_call _ _ _ _ _ FC E S), <- value_bind. apply times_value.
  - apply (shapes_expression [Hm0; r; gb; Hsw] _ _ (fun i => q_at a b gp gb i * nsqrt (g * npow (place i Hm0) #3))%num); [cbn [map args]; rewrite S; reflexivity| |intros; reflexivity].
    unfold q_expr, q_at. expression_tac.
  - intros sh i F I.  unfold args in F. args_tac. unfold VanGent2021Caisson.calculate_overtopping_discharge_q, VanGent2021Caisson.calculate_dimensionless_overtopping_discharge_q. rewrite FC, bind_ret_l, swell_at, bind_ret_l. cbv zeta.
  fold (scalar_beta (place i beta) (place i gamma_beta) gp cb). rewrite <- (V sh i) by assumption.
  unfold VanGent2021Caisson.check_validity_range. mchecks. reflexivity.
Qed.

Theorem C69_Rc_places : place_by_place args
  (ArrVanGent2021Caisson.calculate_crest_freeboard_Rc Hm0 r beta gamma_beta Hsw c cs short crossing parapet g)
  (fun at_ => value (VanGent2021Caisson.calculate_crest_freeboard_Rc (at_ Hm0) (at_ r) (at_ beta) (at_ gamma_beta) (at_ Hsw) c cs short crossing parapet g)).
Proof.
  parts a b cb gp gb E V.
  apply (place_by_place_intro _ _ (Rc_expr a b gp gb * Hm0)%arr (fun i => Rc_at a b gp gb i * place i Hm0)%num).
  - unfold ArrVanGent2021Caisson.calculate_crest_freeboard_Rc. rewrite value_bind, (Rc_call _ _ _ _ _ FC E S), <- value_bind. apply times_value.
  - apply (shapes_expression [Hm0; r; gb; Hsw] _ _ (fun i => Rc_at a b gp gb i * place i Hm0)%num); [cbn [map args]; rewrite S; reflexivity| |intros; reflexivity].
    unfold Rc_expr, Rc_at. expression_tac.
  - intros sh i F I.
  unfold args in F. args_tac. unfold VanGent2021Caisson.calculate_crest_freeboard_Rc, VanGent2021Caisson.calculate_dimensionless_crest_freeboard. rewrite FC, bind_ret_l, swell_at, bind_ret_l. cbv zeta.
  fold (scalar_beta (place i beta) (place i gamma_beta) gp cb). rewrite <- (V sh i) by assumption.
  unfold VanGent2021Caisson.check_validity_range. mchecks. reflexivity.
Qed.
End Calls.

(** ** How the calls end and which warnings they issue *)

Lemma coefficients_or c short crossing parapet :
  (exists a b cb gp, VanGent2021Caisson.determine_coefficients c short crossing parapet = ret (a, b, cb, gp))
  \/ VanGent2021Caisson.determine_coefficients c short crossing parapet = raise ValueError.
Proof.
  unfold VanGent2021Caisson.determine_coefficients.
  destruct (c =? #1)%num, (c =? #1.3)%num, short, crossing, parapet; cbn [orb]; try (right; reflexivity); left; do 4 eexists; reflexivity.
Qed.

Lemma swell_or crossing cs Hsw : swell_one crossing Hsw ->
  (exists k, ArrVanGent2021Caisson.swell_coefficient crossing cs Hsw = ret k /\ forall i, VanGent2021Caisson.swell_coefficient crossing cs (place i Hsw) = ret k)
  \/ (ArrVanGent2021Caisson.swell_coefficient crossing cs Hsw = raise ValueError /\ forall i, VanGent2021Caisson.swell_coefficient crossing cs (place i Hsw) = raise ValueError).
Proof.
  unfold ArrVanGent2021Caisson.swell_coefficient, VanGent2021Caisson.swell_coefficient. destruct crossing; cbn [negb].
  - intros S. destruct (S eq_refl) as (x & O). rewrite (one_is_nan _ _ O), bind_ret_l. destruct (isnan x) eqn:N.
    + right. split; [reflexivity|]. intros i. rewrite (one_place _ _ i O), N. reflexivity.
    + left. exists cs. split; [reflexivity|]. intros i. rewrite (one_place _ _ i O), N. reflexivity.
  - intros _. left. exists (Fin 0). split; intros; reflexivity.
Qed.

Lemma tells_early_raise sh (call : M nums) s e : call = raise e -> (forall i, s i = raise e) -> tells sh call s.
Proof. intros -> H. eapply tells_ext; [|apply tells_raise]. intros; cbv beta; rewrite H; reflexivity. Qed.

Lemma throughout_ext sh f h : (forall i, f (place i) = h (place i)) -> throughout sh f -> throughout sh h.
Proof. intros E [T|T]; [left|right]; intros i I; rewrite <- E; apply T, I. Qed.

Section Reports.
Variables (Hm0 r beta gamma_beta Hsw : nums) (c cs g : num) (short crossing parapet : bool) (x : num).
Hypothesis O : one_number gamma_beta x.
Hypothesis SW : swell_one crossing Hsw.
Section Shape.
Variable sh : option nat.
Hypothesis NE : sh <> Some 0.
Hypothesis (S1 : stretches (shape Hm0) sh) (S2 : stretches (shape r) sh) (S3 : stretches (shape beta) sh)
  (S4 : stretches (shape gamma_beta) sh) (S5 : stretches (shape Hsw) sh).
Hypothesis (A1 : all_or_none Hm0) (A3 : all_or_none beta).

Ltac start_calls :=
  unfold ArrVanGent2021Caisson.calculate_dimensionless_overtopping_discharge_q, VanGent2021Caisson.calculate_dimensionless_overtopping_discharge_q,
    ArrVanGent2021Caisson.calculate_dimensionless_crest_freeboard, VanGent2021Caisson.calculate_dimensionless_crest_freeboard;
  destruct (coefficients_or c short crossing parapet) as [(a & b & cb & gp & FC)|FC]; [|eapply tells_early_raise; [rewrite FC; reflexivity|intros i; rewrite FC; reflexivity]];
  destruct (swell_or crossing cs Hsw SW) as [(k & SA & SI)|(SA & SI)]; [|eapply tells_early_raise; [rewrite FC, bind_ret_l, SA; reflexivity|intros i; rewrite FC, bind_ret_l, SI; reflexivity]].

Section Discharge.
Hypothesis A2 : all_or_none r.
Hypothesis Tq : throughout sh (fun at_ => outcome (VanGent2021Caisson.calculate_dimensionless_overtopping_discharge_q (at_ Hm0) (at_ r) (at_ beta) (at_ gamma_beta) (at_ Hsw) c cs short crossing parapet)).

Lemma tells_q : tells sh (ArrVanGent2021Caisson.calculate_dimensionless_overtopping_discharge_q Hm0 r beta gamma_beta Hsw c cs short crossing parapet) (fun i => VanGent2021Caisson.calculate_dimensionless_overtopping_discharge_q (place i Hm0) (place i r) (place i beta) (place i gamma_beta) (place i Hsw) c cs short crossing parapet).
Proof.
  start_calls.
  assert (T2 : throughout sh (fun at_ => a * nexp (- (b / ((if isnan x then VanGent2021Caisson.calculate_influence_oblique_waves_gamma_beta (at_ beta) gp cb else x) * gp)) * npow ((at_ r - k * at_ Hsw) / at_ Hm0) c))%num).
  { refine (throughout_ext sh _ _ _ Tq). intros i. apply outcome_ok. unfold VanGent2021Caisson.calculate_dimensionless_overtopping_discharge_q. rewrite FC, bind_ret_l, SI, bind_ret_l, (one_place _ _ i O). cbv zeta. unfold VanGent2021Caisson.check_validity_range. mchecks. reflexivity. }
  eapply tells_ext.
  { intros i I. symmetry. rewrite FC, bind_ret_l, SI, bind_ret_l, (one_place _ _ i O). cbv zeta. reflexivity. }
  rewrite FC, bind_ret_l, SA, bind_ret_l.
  unfold ArrVanGent2021Caisson.factor_beta. rewrite (one_is_nan _ _ O), bind_ret_l.
  assert (DG : den sh (value_of gamma_beta) (fun _ => x)).
  { apply (den_ext _ _ (fun i => place i gamma_beta)); [apply den_leaf; assumption|]. intros i I. apply (one_place _ _ i O). }
  destruct (isnan x) eqn:N; autounfold with arrays; autounfold with scalars in *.
  - tells_tac.
  - eapply tells_let; [apply quiet_value|exact DG|]. intros gb S D. tells_tac.
Qed.
End Discharge.

Section Freeboard.
Hypothesis TRc : throughout sh (fun at_ => outcome (VanGent2021Caisson.calculate_crest_freeboard_Rc (at_ Hm0) (at_ r) (at_ beta) (at_ gamma_beta) (at_ Hsw) c cs short crossing parapet g)).

Lemma tells_Rc : tells sh (ArrVanGent2021Caisson.calculate_dimensionless_crest_freeboard Hm0 r beta gamma_beta Hsw c cs short crossing parapet g) (fun i => VanGent2021Caisson.calculate_dimensionless_crest_freeboard (place i Hm0) (place i r) (place i beta) (place i gamma_beta) (place i Hsw) c cs short crossing parapet g).
Proof.
  start_calls.
  assert (T2 : throughout sh (fun at_ => (npow (nlog ((at_ r / nsqrt (g * npow (at_ Hm0) #3)) * (#1 / a)) * (- (if isnan x then VanGent2021Caisson.calculate_influence_oblique_waves_gamma_beta (at_ beta) gp cb else x) * gp / b)) (#1 / c) + k * at_ Hsw / at_ Hm0) * at_ Hm0)%num).
  { refine (throughout_ext sh _ _ _ TRc). intros i. apply outcome_ok. unfold VanGent2021Caisson.calculate_crest_freeboard_Rc, VanGent2021Caisson.calculate_dimensionless_crest_freeboard. rewrite FC, bind_ret_l, SI, bind_ret_l, (one_place _ _ i O). cbv zeta. unfold VanGent2021Caisson.check_validity_range. mchecks. reflexivity. }
  eapply tells_ext.
  { intros i I. symmetry. rewrite FC, bind_ret_l, SI, bind_ret_l, (one_place _ _ i O). cbv zeta. reflexivity. }
  rewrite FC, bind_ret_l, SA, bind_ret_l.
  unfold ArrVanGent2021Caisson.factor_beta. rewrite (one_is_nan _ _ O), bind_ret_l.
  assert (DG : den sh (value_of gamma_beta) (fun _ => x)).
  { apply (den_ext _ _ (fun i => place i gamma_beta)); [apply den_leaf; assumption|]. intros i I. apply (one_place _ _ i O). }
  destruct (isnan x) eqn:N; autounfold with arrays; autounfold with scalars in *.
  - tells_tac.
  - eapply tells_let; [apply quiet_value|exact DG|]. intros gb S D. tells_tac.
Qed.
End Freeboard.
End Shape.

Ltac reports_start := apply reports_intro; intros sh NE F A T; args_tac.

Theorem C69_q_diml_reports : reports_call [Hm0; r; beta; gamma_beta; Hsw] [Hm0; r; beta]
    [fun at_ => outcome (VanGent2021Caisson.calculate_dimensionless_overtopping_discharge_q (at_ Hm0) (at_ r) (at_ beta) (at_ gamma_beta) (at_ Hsw) c cs short crossing parapet)]
    (ArrVanGent2021Caisson.calculate_dimensionless_overtopping_discharge_q Hm0 r beta gamma_beta Hsw c cs short crossing parapet)
    (fun at_ => VanGent2021Caisson.calculate_dimensionless_overtopping_discharge_q (at_ Hm0) (at_ r) (at_ beta) (at_ gamma_beta) (at_ Hsw) c cs short crossing parapet).
Proof. reports_start. apply tells_q; assumption. Qed.
Theorem C69_q_reports : reports_call [Hm0; r; beta; gamma_beta; Hsw] [Hm0; r; beta]
    [fun at_ => outcome (VanGent2021Caisson.calculate_dimensionless_overtopping_discharge_q (at_ Hm0) (at_ r) (at_ beta) (at_ gamma_beta) (at_ Hsw) c cs short crossing parapet)]
    (ArrVanGent2021Caisson.calculate_overtopping_discharge_q Hm0 r beta gamma_beta Hsw c cs short crossing parapet g)
    (fun at_ => VanGent2021Caisson.calculate_overtopping_discharge_q (at_ Hm0) (at_ r) (at_ beta) (at_ gamma_beta) (at_ Hsw) c cs short crossing parapet g).
Proof.
  reports_start. apply tells_call; [apply tells_q; assumption|]. intros q S V. autounfold with arrays. tells_tac.
Qed.
Theorem C69_Rc_diml_reports : reports_call [Hm0; r; beta; gamma_beta; Hsw] [Hm0; beta]
    [fun at_ => outcome (VanGent2021Caisson.calculate_crest_freeboard_Rc (at_ Hm0) (at_ r) (at_ beta) (at_ gamma_beta) (at_ Hsw) c cs short crossing parapet g)]
    (ArrVanGent2021Caisson.calculate_dimensionless_crest_freeboard Hm0 r beta gamma_beta Hsw c cs short crossing parapet g)
    (fun at_ => VanGent2021Caisson.calculate_dimensionless_crest_freeboard (at_ Hm0) (at_ r) (at_ beta) (at_ gamma_beta) (at_ Hsw) c cs short crossing parapet g).
Proof. reports_start. apply tells_Rc; assumption. Qed.
Theorem C69_Rc_reports : reports_call [Hm0; r; beta; gamma_beta; Hsw] [Hm0; beta]
    [fun at_ => outcome (VanGent2021Caisson.calculate_crest_freeboard_Rc (at_ Hm0) (at_ r) (at_ beta) (at_ gamma_beta) (at_ Hsw) c cs short crossing parapet g)]
    (ArrVanGent2021Caisson.calculate_crest_freeboard_Rc Hm0 r beta gamma_beta Hsw c cs short crossing parapet g)
    (fun at_ => VanGent2021Caisson.calculate_crest_freeboard_Rc (at_ Hm0) (at_ r) (at_ beta) (at_ gamma_beta) (at_ Hsw) c cs short crossing parapet g).
Proof.
  reports_start. apply tells_call; [apply tells_Rc; assumption|]. intros q S V. autounfold with arrays. tells_tac.
Qed.
End Reports.

(** ** Arguments that stop the call *)

(** Calls of the four functions *)
Definition four (P : M nums -> Prop) (Hm0 r beta gamma_beta Hsw : nums) (c cs g : num) (short crossing parapet : bool) : Prop :=
  P (ArrVanGent2021Caisson.calculate_dimensionless_overtopping_discharge_q Hm0 r beta gamma_beta Hsw c cs short crossing parapet)
  /\ P (ArrVanGent2021Caisson.calculate_overtopping_discharge_q Hm0 r beta gamma_beta Hsw c cs short crossing parapet g)
  /\ P (ArrVanGent2021Caisson.calculate_dimensionless_crest_freeboard Hm0 r beta gamma_beta Hsw c cs short crossing parapet g)
  /\ P (ArrVanGent2021Caisson.calculate_crest_freeboard_Rc Hm0 r beta gamma_beta Hsw c cs short crossing parapet g).

Lemma four_stop Hm0 r beta gamma_beta Hsw c cs g short crossing parapet :
  (forall k : num * num * num * num -> num -> nums -> M nums,
     value (co <- VanGent2021Caisson.determine_coefficients c short crossing parapet ;;
       sw <- ArrVanGent2021Caisson.swell_coefficient crossing cs Hsw ;;
       gb <- ArrVanGent2021Caisson.factor_beta beta gamma_beta (snd co) (snd (fst co)) ;; k co sw gb) = Err ValueError) ->
  four (fun call => value call = Err ValueError) Hm0 r beta gamma_beta Hsw c cs g short crossing parapet.
Proof.
  intros H.
  assert (Q : value (ArrVanGent2021Caisson.calculate_dimensionless_overtopping_discharge_q Hm0 r beta gamma_beta Hsw c cs short crossing parapet) = Err ValueError).
  { unfold ArrVanGent2021Caisson.calculate_dimensionless_overtopping_discharge_q.
    rewrite <- (H (fun '(a, b, cb, gp) sw gb => (q_diml <- float a * aexp (- (float b / (gb * float gp)) * apow ((r - float sw * Hsw) / Hm0) (float c)) ;;
      ArrVanGent2021Caisson.check_validity_range Hm0 anan beta r q_diml ;; ret q_diml)%arr)).
    rewrite !value_bind. destruct (value (VanGent2021Caisson.determine_coefficients c short crossing parapet)) as [[[[a b] cb] gp]|]; reflexivity. }
  assert (R : value (ArrVanGent2021Caisson.calculate_dimensionless_crest_freeboard Hm0 r beta gamma_beta Hsw c cs short crossing parapet g) = Err ValueError).
  { unfold ArrVanGent2021Caisson.calculate_dimensionless_crest_freeboard.
    rewrite <- (H (fun '(a, b, cb, gp) sw gb => (Rd <- apow (alog ((r / asqrt (float g * apow Hm0 #3)) * (#1 / float a)) * (- gb * float gp / float b)) (#1 / float c)
      + float sw * Hsw / Hm0 ;; Rc <- Rd * Hm0 ;; ArrVanGent2021Caisson.check_validity_range Hm0 anan beta Rc anan ;; ret Rd)%arr)).
    rewrite !value_bind. destruct (value (VanGent2021Caisson.determine_coefficients c short crossing parapet)) as [[[[a b] cb] gp]|]; reflexivity. }
  split; [exact Q|]. split; [unfold ArrVanGent2021Caisson.calculate_overtopping_discharge_q; rewrite value_bind, Q; reflexivity|].
  split; [exact R|]. unfold ArrVanGent2021Caisson.calculate_crest_freeboard_Rc; rewrite value_bind, R; reflexivity.
Qed.

Lemma unfitted_coefficients c short crossing parapet : ~ fitted c short crossing parapet ->
  VanGent2021Caisson.determine_coefficients c short crossing parapet = raise ValueError.
Proof.
  intros N. destruct (coefficients_or c short crossing parapet) as [(a & b & cb & gp & E)|E]; [|exact E]. exfalso. apply N.
  unfold VanGent2021Caisson.determine_coefficients in E. split.
  - destruct c as [z| | |]; try discriminate E. unfold neqb in E.
    destruct (Reqb_spec z 1) as [->|]; [left; reflexivity|]. destruct (Reqb_spec z 1.3) as [->|]; [right; reflexivity|]. discriminate E.
  - intros -> ->. destruct parapet; [|reflexivity]. cbn [orb] in E. destruct (c =? #1)%num, (c =? #1.3)%num; discriminate E.
Qed.

Theorem C69_stops : forall Hm0 r beta gamma_beta Hsw c cs g short crossing parapet,
  ~ fitted c short crossing parapet \/ ~ swell_ok crossing Hsw \/ (forall x, ~ one_number gamma_beta x) ->
  four (fun call => value call = Err ValueError) Hm0 r beta gamma_beta Hsw c cs g short crossing parapet.
Proof.
  intros Hm0 r beta gamma_beta Hsw c cs g short crossing parapet H. apply four_stop. intros k.
  destruct (coefficients_or c short crossing parapet) as [(a & b & cb & gp & FC)|FC]; rewrite FC; [rewrite bind_ret_l|reflexivity]. cbn [fst snd].
  destruct H as [H|[H|H]].
  - rewrite (unfitted_coefficients _ _ _ _ H) in FC. discriminate FC.
  - unfold ArrVanGent2021Caisson.swell_coefficient. destruct crossing; [|exfalso; apply H; intros D; discriminate D]. cbn [negb].
    destruct Hsw as [z|[|z [|z' l]]]; try reflexivity;
    (assert (N : isnan z = true) by (destruct (isnan z) eqn:N; [reflexivity|exfalso; apply H; intros _; exists z; split; [reflexivity|exact N]]));
    unfold is_nan; cbn; rewrite N; reflexivity.
  - rewrite value_bind. assert (X : forall sw, value (gb <- ArrVanGent2021Caisson.factor_beta beta gamma_beta gp cb ;; k (a, b, cb, gp) sw gb) = Err ValueError).
    { intros sw. unfold ArrVanGent2021Caisson.factor_beta. rewrite value_bind, several_is_nan by exact H. reflexivity. }
    unfold ArrVanGent2021Caisson.swell_coefficient. destruct crossing; cbn [negb]; [|apply X].
    destruct Hsw as [z|[|z [|z' l]]]; try reflexivity; unfold is_nan; cbn; destruct (isnan z); try reflexivity; apply X.
Qed.

Example C69_caisson_example :
  (exists r, value (ArrVanGent2021Caisson.calculate_overtopping_discharge_q (Ar [#1; #4]%num) #2 #30 #1 #2 #1%num #1%num true true false #1%num) = Ok r
   /\ shape r = Some 2 /\ place 1 r = Fin 1.6)
  /\ value (ArrVanGent2021Caisson.calculate_overtopping_discharge_q #1 #2 #30 (Ar [#1; #0.9]%num) #2 #1%num #1%num true true false #1%num) = Err ValueError
  /\ (exists x, value (VanGent2021Caisson.calculate_overtopping_discharge_q #1 #2 #30 #0.9 #2 #1 #1 true true false #1)%num = Ok x)
  /\ value (ArrVanGent2021Caisson.calculate_overtopping_discharge_q #1 #2 #30 #1 (Ar [#2; #2]%num) #1%num #1%num true true false #1%num) = Err ValueError.
Proof.
  split; [|split; [|split]].
  - destruct (C69_q_places (Ar [#1; #4]%num) (lit 2) (lit 30) (lit 1) (lit 2) (lit 1) #1%num #1%num #1%num true true false) as (H & _).
    + split; [left; reflexivity|intros D; discriminate D].
    + intros _. exists (Fin 2). split; reflexivity.
    + exists (Fin 1). split; [reflexivity|]. left. split; reflexivity.
    + destruct (H (Some 2)) as (r & E & S & V). { split; [apply shapes_ok; reflexivity|cbn; auto]. }
      exists r. split; [exact E|]. split; [exact S|].
      pose proof (V 1 ltac:(cbn; lia)) as P. apply (f_equal (fun z => match z with Ok w => w | Err _ => NaN end)) in P. cbn beta iota in P. rewrite <- P.
      unfold VanGent2021Caisson.calculate_overtopping_discharge_q, VanGent2021Caisson.calculate_dimensionless_overtopping_discharge_q.
      unfold VanGent2021Caisson.determine_coefficients. change (place 1 (Ar [#1; #4]%num)) with (#4)%num. unfold place, lit; cbn [at_].
      replace (#1 =? #1)%num with true by (symmetry; nfin; apply Reqb_true; reflexivity). cbn [orb]. mchecks.
      unfold VanGent2021Caisson.swell_coefficient, VanGent2021Caisson.check_validity_range. cbn [negb isnan]. mchecks. nfin.
      replace ((2 - 1 * 2) / 4)%R with 0%R by field. rewrite npow_0_pos by lra. nfin. rewrite Rmult_0_r, exp_0.
      replace (1 * 4 ^ 3)%R with (8 * 8)%R by ring. rewrite sqrt_square by lra. f_equal. lra.
  - destruct (C69_stops (lit 1) (lit 2) (lit 30) (Ar [#1; #0.9]%num) (lit 2) #1%num #1%num #1%num true true false) as (_ & H & _); [|exact H].
    right. right. intros x O. discriminate O.
  - destruct (C69_q_places (lit 1) (lit 2) (lit 30) (lit 0.9) (lit 2) (lit 0.9) #1%num #1%num #1%num true true false) as (H & _).
    + split; [left; reflexivity|intros D; discriminate D].
    + intros _. exists (Fin 2). split; reflexivity.
    + exists (Fin 0.9). split; [reflexivity|]. left. split; reflexivity.
    + destruct (H None) as (r & E & S & V). { split; [apply shapes_ok; reflexivity|cbn; auto]. }
      exists (place 0 r). apply (V 0). exact I.
  - destruct (C69_stops (lit 1) (lit 2) (lit 30) (lit 1) (Ar [#2; #2]%num) #1%num #1%num #1%num true true false) as (_ & H & _); [|exact H].
    right. left. intros SW. destruct (SW eq_refl) as (x & O & _). discriminate O.
Qed.

(** ** The validity check *)

Theorem C69_check : forall Hm0 Tmm10 beta Rc q_diml,
  reports_places [Hm0; Tmm10; beta; Rc; q_diml]
    (ArrVanGent2021Caisson.check_validity_range Hm0 Tmm10 beta Rc q_diml)
    (fun at_ => VanGent2021Caisson.check_validity_range (at_ Hm0) (at_ Tmm10) (at_ beta) (at_ Rc) (at_ q_diml)).
Proof. intros. unfold ArrVanGent2021Caisson.check_validity_range, VanGent2021Caisson.check_validity_range. reports_tac. told_tac. Qed.
