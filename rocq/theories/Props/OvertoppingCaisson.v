(** Property C25: overtopping of vertical caissons, Van Gent (2021). *)
From Coq Require Import Reals Lra List Bool String.
From Verif.Lib Require Import Num Monad RTac NTac.
From Verif.Spec Require Import Waves Ranges Overtopping.
From Verif.Model Require Import CoreUtility CorePhysics Numpy VanGent2021Caisson.
From Verif.Proofs Require Import Core CheckTac Warns Overtopping.
From Verif.Props Require Import SetupVanGent.
Import ListNotations.
Open Scope R_scope.

Lemma checks_cs a b c d e : value (check_validity_range a b c d e) = Ok tt.
Proof. unfold check_validity_range. mchecks. reflexivity. Qed.

Notation qc := calculate_overtopping_discharge_q.
Notation Rcc := calculate_crest_freeboard_Rc.

(** ** The coefficients *)

Lemma fitted_coefs s x p c a b cb gp : caisson_fitted (s || x) p c a b cb gp ->
  determine_coefficients (Fin c) s x p = ret (Fin a, Fin b, Fin cb, Fin gp).
Proof.
  remember (s || x)%bool as d eqn:E. intros F. unfold determine_coefficients.
  destruct F; rewrite <- E, !neqb_fin, ?(Reqb_true 1 1), ?(Reqb_false 1.3 1), ?(Reqb_true 1.3 1.3) by lra; reflexivity.
Qed.

Lemma fitted_pos d p c a b cb gp : caisson_fitted d p c a b cb gp ->
  (c = 1 \/ c = 1.3) /\ 0 < a /\ 0 < b /\ 0 < cb < gp /\ 0 < gp <= 1.
Proof. destruct 1; repeat split; auto; lra. Qed.

(** The coefficients are the published ones for every exponent, kind of sea and
    crest that was fitted; every other combination raises ValueError. *)
Theorem C25_coefficients : forall c short crossing parapet,
  (exists c' a b cb gp, c = Fin c' /\ caisson_fitted (short || crossing) parapet c' a b cb gp
     /\ determine_coefficients c short crossing parapet = ret (Fin a, Fin b, Fin cb, Fin gp))
  \/ ((forall c' a b cb gp, c = Fin c' -> ~ caisson_fitted (short || crossing) parapet c' a b cb gp)
      /\ determine_coefficients c short crossing parapet = raise ValueError).
Proof.
  intros c s x p.
  assert (N : forall c' d a b cb gp, caisson_fitted d p c' a b cb gp -> (c' = 1 \/ c' = 1.3) /\ (d || negb p = true)%bool).
  { intros c' d a b cb gp F. destruct F; auto. }
  destruct c as [c| | |]; try (right; split; [discriminate|reflexivity]).
  destruct (Req_dec c 1) as [->|N1]; [|destruct (Req_dec c 1.3) as [->|N2]].
  - destruct (s || x)%bool eqn:E; [destruct p|destruct p].
    + left. do 5 eexists. split; [reflexivity|split; [apply fit_multi_parapet_1|]]. apply fitted_coefs. rewrite E. constructor.
    + left. do 5 eexists. split; [reflexivity|split; [apply fit_multi_1|]]. apply fitted_coefs. rewrite E. constructor.
    + right. split; [intros ? ? ? ? ? ? F; apply N in F as [_ F]; discriminate|].
      unfold determine_coefficients. rewrite neqb_fin, Reqb_true, E by lra. reflexivity.
    + left. do 5 eexists. split; [reflexivity|split; [apply fit_single_1|]]. apply fitted_coefs. rewrite E. constructor.
  - destruct (s || x)%bool eqn:E; [destruct p|destruct p].
    + left. do 5 eexists. split; [reflexivity|split; [apply fit_multi_parapet_13|]]. apply fitted_coefs. rewrite E. constructor.
    + left. do 5 eexists. split; [reflexivity|split; [apply fit_multi_13|]]. apply fitted_coefs. rewrite E. constructor.
    + right. split; [intros ? ? ? ? ? ? F; apply N in F as [_ F]; discriminate|].
      unfold determine_coefficients. rewrite !neqb_fin, Reqb_false, Reqb_true, E by lra. reflexivity.
    + left. do 5 eexists. split; [reflexivity|split; [apply fit_single_13|]]. apply fitted_coefs. rewrite E. constructor.
  - right. split.
    + intros c' a b cb gp [= <-] F. apply N in F as [[F|F] _]; auto.
    + unfold determine_coefficients. rewrite !neqb_fin, !Reqb_false by assumption. reflexivity.
Qed.

(** ** Powers *)

Lemma to_power_at_1 x y : to_power x y 1 <-> y = x.
Proof.
  split; [|intros; constructor; assumption].
  intros P. remember 1 as c eqn:E. destruct P; auto; lra.
Qed.

Lemma to_power_at_13 x y : to_power x y 1.3 <-> (0 < x /\ y = Rpower x 1.3) \/ (x = 0 /\ y = 0).
Proof.
  split.
  - intros P. remember 1.3 as c eqn:E. destruct P; auto; lra.
  - intros [[]|[]]; [apply power_13|apply power_13_0]; assumption.
Qed.

Lemma npow_fin_1 x : npow (Fin x) (Fin 1) = Fin x.
Proof. rewrite <- (pow_1 x) at 2. apply (npow_fin_nat x 1). Qed.

Lemma npow_to_power x c : c = 1 \/ c = 1.3 ->
  (exists y, npow (Fin x) (Fin c) = Fin y /\ to_power x y c)
  \/ (npow (Fin x) (Fin c) = NaN /\ forall y, ~ to_power x y c).
Proof.
  intros [-> | ->].
  - left. exists x. split; [apply npow_fin_1|constructor; reflexivity].
  - destruct (Rtotal_order x 0) as [L|[-> |L]].
    + right. split; [apply npow_neg_nonint; [assumption|apply (not_int _ 1); lra]|].
      intros y P. apply to_power_at_13 in P. lra.
    + left. exists 0. split; [apply npow_0_pos; lra|apply power_13_0; reflexivity].
    + left. exists (Rpower x 1.3). split; [apply npow_fin; assumption|apply power_13; auto].
Qed.

Lemma to_power_unique x y z c : c = 1 \/ c = 1.3 -> to_power x y c -> to_power x z c -> y = z.
Proof.
  intros [-> | ->].
  - rewrite !to_power_at_1. congruence.
  - rewrite !to_power_at_13. intros [[]|[]] [[]|[]]; subst; try reflexivity; lra.
Qed.

(** Taking the power [1/c] inverts taking the power [c]. *)
Lemma npow_inverse x y c : c = 1 \/ c = 1.3 ->
  (npow (Fin y) (Fin (1 / c)) = Fin x <-> to_power x y c).
Proof.
  intros [-> | ->].
  - replace (1 / 1) with 1 by lra. rewrite npow_fin_1, to_power_at_1. split; congruence.
  - rewrite to_power_at_13. destruct (Rtotal_order y 0) as [L|[-> |L]].
    + rewrite npow_neg_nonint by (try assumption; apply (not_int _ 0); lra). split; [discriminate|].
      intros [[P E]|[_ E]]; [pose proof (Rpower_pos x 1.3)|]; lra.
    + rewrite npow_0_pos by lra. split; [intros [= <-]; auto|].
      intros [[P E]|[E _]]; [pose proof (Rpower_pos x 1.3); lra|congruence].
    + rewrite npow_fin by assumption. split.
      * intros [= <-]. left. split; [apply Rpower_pos|]. rewrite Rpower_mult.
        replace (1 / 1.3 * 1.3) with 1 by lra. rewrite Rpower_1 by assumption. reflexivity.
      * intros [[P E]|[_ E]]; [|lra]. subst y. rewrite Rpower_mult.
        replace (1.3 * (1 / 1.3)) with 1 by lra. rewrite Rpower_1 by assumption. reflexivity.
Qed.

(** ** The discharge and the freeboard *)

(** Freeboard taken by the swell. *)
Definition rise (crossing : bool) (cs Hsw : R) : R := if crossing then cs * Hsw else 0.

Lemma swell_value crossing cs Hsw :
  swell_coefficient crossing (Fin cs) (Fin Hsw) = ret (if crossing then Fin cs else Fin 0).
Proof. unfold swell_coefficient. destruct crossing; reflexivity. Qed.

(** Both functions compute the published relation, for every gravity, whichever
    of the six fits applies. *)
Theorem C25_agree_with_relation : forall g H short crossing parapet c a b cb gp gb cs Hsw beta,
  0 < g -> 0 < H -> 0 < gb -> caisson_fitted (short || crossing) parapet c a b cb gp ->
  (forall Rc q,
     value (qc (Fin H) (Fin Rc) beta (Fin gb) (Fin Hsw) (Fin c) (Fin cs) short crossing parapet (Fin g)) = Ok (Fin q)
     <-> caisson_relation g H a b c gb gp (rise crossing cs Hsw) Rc q) /\
  (forall Rc q, 0 < q ->
     (value (Rcc (Fin H) (Fin q) beta (Fin gb) (Fin Hsw) (Fin c) (Fin cs) short crossing parapet (Fin g)) = Ok (Fin Rc)
      <-> caisson_relation g H a b c gb gp (rise crossing cs Hsw) Rc q)).
Proof.
  intros g H short crossing parapet c a b cb gp gb cs Hsw beta Hg HH Hgb F.
  destruct (fitted_pos _ _ _ _ _ _ _ F) as (Hc & Ha & Hb & Hcb & Hgp).
  pose proof (q_unit_pos g H Hg HH) as HU. assert (Hgg : 0 < gb * gp) by (apply Rmult_lt_0_compat; lra).
  assert (HcN : c <> 0) by lra.
  assert (Rs : (if crossing then cs else 0) * Hsw = rise crossing cs Hsw) by (unfold rise; destruct crossing; ring).
  assert (Sw : (if crossing then Fin cs else Fin 0) = Fin (if crossing then cs else 0)) by (destruct crossing; reflexivity).
  split.
  - intros Rc q. unfold qc, calculate_dimensionless_overtopping_discharge_q.
    rewrite (fitted_coefs _ _ _ _ _ _ _ _ F). mval. rewrite swell_value, Sw. mval. rewrite checks_cs. mval.
    cbn [isnan]. rewrite q_unit_fin by assumption. nfin. rewrite Rs. unfold caisson_relation.
    destruct (npow_to_power ((Rc - rise crossing cs Hsw) / H) c Hc) as [(y & E & P)|(E & N)]; rewrite E.
    + nfin. rewrite fin_ok_iff. split.
      * intros <-. exists y. split; [assumption|]. apply div_eq; [lra|].
        do 2 f_equal. f_equal. ring.
      * intros (z & P' & E'). rewrite (to_power_unique _ _ _ _ Hc P P'). rewrite div_eq in E' by lra. rewrite E'.
        do 2 f_equal. f_equal. ring.
    + nnan. split; [discriminate|]. intros (z & P & _). destruct (N z P).
  - intros Rc q Hq. unfold Rcc, calculate_dimensionless_crest_freeboard.
    rewrite (fitted_coefs _ _ _ _ _ _ _ _ F). mval. rewrite swell_value, Sw. mval. rewrite checks_cs. mval.
    cbn [isnan]. rewrite q_unit_fin by assumption.
    assert (0 < q / q_unit g H) by (apply Rdiv_lt_0_compat; assumption).
    assert (0 < q / q_unit g H * (1 / a)) by (apply Rmult_lt_0_compat; [assumption|apply Rdiv_lt_0_compat; lra]).
    nfin. rewrite Rs. unfold caisson_relation.
    set (Y := ln (q / q_unit g H * (1 / a)) * (- gb * gp / b)).
    assert (EY : forall y, q / q_unit g H = a * exp (- (b / (gb * gp) * y)) <-> y = Y).
    { intros y. rewrite exp_relation by assumption. unfold Y. rewrite ln_mult by (try assumption; apply Rdiv_lt_0_compat; lra).
      rewrite (ln_div 1 a), ln_1 by lra. set (l := ln (q / q_unit g H)). split.
      - intros E. apply Rmult_eq_reg_l with (b / (gb * gp)); [|apply Rgt_not_eq; apply Rdiv_lt_0_compat; assumption].
        rewrite E. field. repeat split; lra.
      - intros ->. field. repeat split; lra. }
    split.
    + intros E. exists Y. split; [|apply EY; reflexivity].
      apply npow_inverse; [assumption|].
      destruct (npow (Fin Y) (Fin (1 / c))) as [x| | |]; revert E; nfin; cbn [nadd].
      * rewrite fin_ok_iff. intros <-. f_equal. field. lra.
      * rewrite nmul_pinf_pos by assumption. discriminate.
      * rewrite nmul_ninf_pos by assumption. discriminate.
      * discriminate.
    + intros (y & P & E). apply EY in E. subst y. apply npow_inverse in P; [|assumption]. rewrite P. nfin.
      do 2 f_equal. field. lra.
Qed.

(** Hence exact inverses: every freeboard above the swell comes back, and every
    discharge up to the maximum [a sqrt (g H^3)]. *)
Theorem C25_round_trip : forall g H short crossing parapet c a b cb gp gb cs Hsw beta,
  0 < g -> 0 < H -> 0 < gb -> caisson_fitted (short || crossing) parapet c a b cb gp ->
  (forall Rc, (rise crossing cs Hsw <= Rc \/ c = 1) -> exists q, 0 < q /\
     value (qc (Fin H) (Fin Rc) beta (Fin gb) (Fin Hsw) (Fin c) (Fin cs) short crossing parapet (Fin g)) = Ok (Fin q) /\
     value (Rcc (Fin H) (Fin q) beta (Fin gb) (Fin Hsw) (Fin c) (Fin cs) short crossing parapet (Fin g)) = Ok (Fin Rc)) /\
  (forall q, 0 < q -> (q <= a * q_unit g H \/ c = 1) -> exists Rc,
     value (Rcc (Fin H) (Fin q) beta (Fin gb) (Fin Hsw) (Fin c) (Fin cs) short crossing parapet (Fin g)) = Ok (Fin Rc) /\
     value (qc (Fin H) (Fin Rc) beta (Fin gb) (Fin Hsw) (Fin c) (Fin cs) short crossing parapet (Fin g)) = Ok (Fin q)).
Proof.
  intros g H short crossing parapet c a b cb gp gb cs Hsw beta Hg HH Hgb F.
  destruct (C25_agree_with_relation g H short crossing parapet c a b cb gp gb cs Hsw beta Hg HH Hgb F) as [A B].
  destruct (fitted_pos _ _ _ _ _ _ _ F) as (Hc & Ha & Hb & Hcb & Hgp).
  pose proof (q_unit_pos g H Hg HH) as HU. assert (Hgg : 0 < gb * gp) by (apply Rmult_lt_0_compat; lra).
  set (D := rise crossing cs Hsw) in *. split.
  - intros Rc HR.
    assert (P : exists y, to_power ((Rc - D) / H) y c).
    { destruct Hc as [-> | ->]; [eexists; apply to_power_at_1; reflexivity|].
      destruct (Rle_lt_or_eq_dec D Rc) as [L|E]; [destruct HR; lra| |].
      - exists (Rpower ((Rc - D) / H) 1.3). apply to_power_at_13. left. split; [apply Rdiv_lt_0_compat; lra|reflexivity].
      - exists 0. apply to_power_at_13. right. split; [rewrite E; field; lra|reflexivity]. }
    destruct P as (y & P).
    assert (Q : caisson_relation g H a b c gb gp D Rc (a * exp (- (b / (gb * gp) * y)) * q_unit g H)).
    { exists y. split; [assumption|]. apply div_eq; [lra|reflexivity]. }
    eexists. assert (0 < a * exp (- (b / (gb * gp) * y)) * q_unit g H) by (repeat apply Rmult_lt_0_compat; try apply exp_pos; assumption).
    split; [eassumption|]. split; [apply A|apply B]; assumption.
  - intros q Hq HR.
    set (y := - (ln (q / q_unit g H) - ln a) * (gb * gp) / b).
    assert (E : q / q_unit g H = a * exp (- (b / (gb * gp) * y))).
    { apply exp_relation; [apply Rdiv_lt_0_compat; assumption|assumption|]. unfold y. set (l := _ - _). field. lra. }
    assert (P : exists x, to_power x y c).
    { destruct Hc as [-> | ->]; [eexists; apply to_power_at_1; reflexivity|].
      assert (L : 0 <= y).
      { destruct HR as [HR|HR]; [|lra]. unfold y. apply Rmult_le_pos; [|left; rpos]. apply Rmult_le_pos; [|lra].
        assert (ln (q / q_unit g H) <= ln a); [|lra].
        assert (q / q_unit g H <= a) by (apply Rmult_le_reg_r with (q_unit g H); [assumption|]; unfold Rdiv; rewrite Rmult_assoc, Rinv_l by lra; lra).
        assert (0 < q / q_unit g H) by (apply Rdiv_lt_0_compat; assumption).
        destruct (Rle_lt_or_eq_dec _ _ H0) as [L|L]; [left; apply ln_increasing; assumption|right; congruence]. }
      destruct (Rle_lt_or_eq_dec _ _ L) as [L'|L'].
      - exists (Rpower y (1 / 1.3)). apply to_power_at_13. left. split; [apply Rpower_pos|].
        rewrite Rpower_mult. replace (1 / 1.3 * 1.3) with 1 by lra. rewrite Rpower_1 by assumption. reflexivity.
      - exists 0. apply to_power_at_13. right. auto. }
    destruct P as (x & P). exists (x * H + D).
    assert (Q : caisson_relation g H a b c gb gp D (x * H + D) q).
    { exists y. split; [|assumption]. replace ((x * H + D - D) / H) with x by (field; lra). assumption. }
    split; [apply B|apply A]; assumption.
Qed.

(** ** The angle factor *)

(** Left out, the factor is computed from the angle, with the published formula
    of the applicable fit; it is even in the angle, 1 for perpendicular waves,
    and never below [c_beta / gamma_p]. *)
Theorem C25_angle_factor : forall g H short crossing parapet c a b cb gp cs Hsw beta Rc q,
  caisson_fitted (short || crossing) parapet c a b cb gp ->
  qc H Rc (Fin beta) NaN Hsw (Fin c) cs short crossing parapet g
    = qc H Rc (Fin beta) (Fin (caisson_gamma cb gp beta)) Hsw (Fin c) cs short crossing parapet g
  /\ Rcc H q (Fin beta) NaN Hsw (Fin c) cs short crossing parapet g
    = Rcc H q (Fin beta) (Fin (caisson_gamma cb gp beta)) Hsw (Fin c) cs short crossing parapet g
  /\ cb / gp <= caisson_gamma cb gp beta <= 1
  /\ caisson_gamma cb gp (- beta) = caisson_gamma cb gp beta
  /\ caisson_gamma cb gp 0 = 1.
Proof.
  intros g H short crossing parapet c a b cb gp cs Hsw beta Rc q F.
  destruct (fitted_pos _ _ _ _ _ _ _ F) as (Hc & Ha & Hb & Hcb & Hgp).
  assert (V : calculate_influence_oblique_waves_gamma_beta (Fin beta) (Fin gp) (Fin cb) = Fin (caisson_gamma cb gp beta)).
  { unfold calculate_influence_oblique_waves_gamma_beta, deg2rad, caisson_gamma. nfin.
    replace (beta * (PI / 180)) with (beta * PI / 180) by field. reflexivity. }
  assert (Q : 0 < cb / gp < 1).
  { split; [apply Rdiv_lt_0_compat; lra|]. apply Rmult_lt_reg_r with gp; [lra|]. unfold Rdiv. rewrite Rmult_assoc, Rinv_l by lra. lra. }
  split; [|split].
  - unfold qc, calculate_dimensionless_overtopping_discharge_q. rewrite (fitted_coefs _ _ _ _ _ _ _ _ F), !bind_ret_l.
    cbn [isnan]. cbv beta iota zeta. rewrite V. reflexivity.
  - unfold Rcc, calculate_dimensionless_crest_freeboard. rewrite (fitted_coefs _ _ _ _ _ _ _ _ F), !bind_ret_l.
    cbn [isnan]. cbv beta iota zeta. rewrite V. reflexivity.
  - unfold caisson_gamma. pose proof (COS_bound (beta * PI / 180)).
    set (k := cos (beta * PI / 180)) in *. pose proof (pow2_ge_0 k).
    assert (k ^ 2 <= 1) by nra. repeat split; try nra.
    + replace (- beta * PI / 180) with (- (beta * PI / 180)) by field. rewrite cos_neg. reflexivity.
    + replace (0 * PI / 180) with 0 by field. rewrite cos_0. lra.
Qed.

(** ** What is refused, and what silently is no number *)

(** The only error is ValueError: for an unfitted combination, and for crossing
    seas of which the swell is not given -- whatever the other arguments. *)
Theorem C25_refusals : forall H Rc q beta gb Hsw c cs short crossing parapet g,
  let refused := (forall c' a b cb gp, c = Fin c' -> ~ caisson_fitted (short || crossing) parapet c' a b cb gp)
                 \/ (crossing = true /\ Hsw = NaN) in
  (forall e, value (qc H Rc beta gb Hsw c cs short crossing parapet g) = Err e <-> e = ValueError /\ refused) /\
  (forall e, value (Rcc H q beta gb Hsw c cs short crossing parapet g) = Err e <-> e = ValueError /\ refused).
Proof.
  intros H Rc q beta gb Hsw c cs short crossing parapet g refused.
  destruct (C25_coefficients c short crossing parapet) as [(c' & a & b & cb & gp & -> & F & E)|[N E]].
  - assert (NF : ~ (forall c'0 a b cb gp, Fin c' = Fin c'0 -> ~ caisson_fitted (short || crossing) parapet c'0 a b cb gp)).
    { intros X. apply (X c' a b cb gp); [reflexivity|assumption]. }
    assert (S : (swell_coefficient crossing cs Hsw = raise ValueError /\ crossing = true /\ Hsw = NaN)
                \/ (exists v, swell_coefficient crossing cs Hsw = ret v /\ ~ (crossing = true /\ Hsw = NaN))).
    { unfold swell_coefficient. destruct crossing; cbn [negb].
      - destruct Hsw; cbn [isnan]; [right|right|right|left]; try (eexists; split; [reflexivity|]; intros []; discriminate). auto.
      - right. eexists. split; [reflexivity|]. intros []; discriminate. }
    unfold qc, calculate_dimensionless_overtopping_discharge_q, Rcc, calculate_dimensionless_crest_freeboard.
    rewrite E, !bind_ret_l. cbv beta iota zeta.
    destruct S as [(S & Hx & Hn)|(v & S & Hx)]; rewrite S.
    + split; intros e; (split; [intros [= <-]; split; [reflexivity|right; auto]|intros [-> _]; reflexivity]).
    + split; intros e; mval; rewrite checks_cs; mval; (split; [discriminate|intros [_ [X|X]]; contradiction]).
  - unfold qc, calculate_dimensionless_overtopping_discharge_q, Rcc, calculate_dimensionless_crest_freeboard.
    rewrite E. split; intros e; (split; [intros [= <-]; split; [reflexivity|left; assumption]|intros [-> _]; reflexivity]).
Qed.

(** A swell height left out in a sea without swell: multiplied by a zero
    coefficient it still makes every result NaN. *)
Theorem C25_default_swell_is_no_number : forall H Rc q beta gb c cs short parapet g,
  value (qc H Rc beta gb NaN c cs short false parapet g) <> Err ValueError ->
  value (qc H Rc beta gb NaN c cs short false parapet g) = Ok NaN
  /\ value (Rcc H q beta gb NaN c cs short false parapet g) = Ok NaN.
Proof.
  intros H Rc q beta gb c cs short parapet g N.
  destruct (C25_coefficients c short false parapet) as [(c' & a & b & cb & gp & -> & F & E)|[_ E]].
  - unfold qc, calculate_dimensionless_overtopping_discharge_q, Rcc, calculate_dimensionless_crest_freeboard.
    rewrite E, !bind_ret_l. cbv beta iota zeta. unfold swell_coefficient. cbn [negb].
    rewrite !bind_ret_l. mval. rewrite !checks_cs. mval.
    destruct (fitted_pos _ _ _ _ _ _ _ F) as (Hc & _).
    nnan. split; reflexivity.
  - exfalso. apply N. unfold qc, calculate_dimensionless_overtopping_discharge_q. rewrite E. reflexivity.
Qed.

(** So the call with all defaults never computes the published discharge. *)
Theorem C25_default_call_refuted : exists g H Rc q,
  0 < g /\ 0 < H /\ 0 <= Rc
  /\ caisson_relation g H 0.2 3.9 1 1 1 0 Rc q
  /\ value (qc (Fin H) (Fin Rc) #0 NaN NaN c_default c_swell_default short_crested_default
             crossing_seas_default parapet_default (Fin g)) <> Ok (Fin q).
Proof.
  exists 9.81, 1, 0, (0.2 * q_unit 9.81 1). repeat split; try lra.
  - exists ((0 - 0) / 1). split; [apply to_power_at_1; reflexivity|].
    pose proof (q_unit_pos 9.81 1 ltac:(lra) ltac:(lra)).
    replace (0.2 * q_unit 9.81 1 / q_unit 9.81 1) with 0.2 by (field; lra).
    replace (- (3.9 / (1 * 1) * ((0 - 0) / 1))) with 0 by lra. rewrite exp_0. lra.
  - pose proof (C25_default_swell_is_no_number #1 #0 #0 #0 NaN c_default c_swell_default true false #9.81) as D.
    destruct D as [D _].
    + unfold c_default, qc, calculate_dimensionless_overtopping_discharge_q.
      rewrite (fitted_coefs true false false 1 0.2 3.9 0.75 1 fit_multi_1), bind_ret_l.
      cbv beta iota zeta. unfold swell_coefficient. cbn [negb]. rewrite bind_ret_l. mval. rewrite checks_cs. mval. discriminate.
    + unfold short_crested_default, crossing_seas_default, parapet_default. rewrite D. discriminate.
Qed.

(** ** Warnings *)

Theorem C25_warnings : forall g H short crossing parapet c a b cb gp gb cs Hsw beta Rc q,
  0 < g -> 0 < H -> 0 < gb -> caisson_fitted (short || crossing) parapet c a b cb gp ->
  caisson_relation g H a b c gb gp (rise crossing cs Hsw) Rc q -> 0 < q ->
  let freeboard := Range "Dimensionless freeboard Rc/Hm0" "Van Gent (2021)" (Rc / H) 1.2 2.9 in
  let discharge := Range "Dimensionless overtopping discharge q" "Van Gent (2021)" (q / q_unit g H) 0 0.0012 in
  let angle := Range "Incident wave angle beta" "Van Gent (2021)" beta 0 75 in
  let qcall beta := qc (Fin H) (Fin Rc) beta (Fin gb) (Fin Hsw) (Fin c) (Fin cs) short crossing parapet (Fin g) in
  let Rcall beta := Rcc (Fin H) (Fin q) beta (Fin gb) (Fin Hsw) (Fin c) (Fin cs) short crossing parapet (Fin g) in
  flagged [freeboard; discharge; angle] (warns (qcall (Fin beta))) /\
  flagged [freeboard; discharge] (warns (qcall NaN)) /\
  flagged [freeboard; angle] (warns (Rcall (Fin beta))) /\
  flagged [freeboard] (warns (Rcall NaN)).
Proof.
  intros g H short crossing parapet c a b cb gp gb cs Hsw beta Rc q Hg HH Hgb F Rel Hq freeboard discharge angle qcall Rcall.
  destruct (fitted_pos _ _ _ _ _ _ _ F) as (Hc & Ha & Hb & Hcb & Hgp).
  pose proof (q_unit_pos g H Hg HH) as HU. assert (Hgg : 0 < gb * gp) by (apply Rmult_lt_0_compat; lra).
  assert (HcN : c <> 0) by lra.
  assert (Rs : (if crossing then cs else 0) * Hsw = rise crossing cs Hsw) by (unfold rise; destruct crossing; ring).
  assert (Sw : (if crossing then Fin cs else Fin 0) = Fin (if crossing then cs else 0)) by (destruct crossing; reflexivity).
  destruct Rel as (y & P & E).
  assert (Qd : forall beta, calculate_dimensionless_overtopping_discharge_q (Fin H) (Fin Rc) beta (Fin gb) (Fin Hsw) (Fin c) (Fin cs) short crossing parapet
     = check_validity_range (Fin H) NaN beta (Fin Rc) (Fin (q / q_unit g H)) ;; ret (Fin (q / q_unit g H))).
  { intros beta'. unfold calculate_dimensionless_overtopping_discharge_q.
    rewrite (fitted_coefs _ _ _ _ _ _ _ _ F), bind_ret_l. cbv beta iota zeta. rewrite swell_value, Sw, bind_ret_l.
    cbn [isnan]. nfin. rewrite Rs.
    destruct (npow_to_power ((Rc - rise crossing cs Hsw) / H) c Hc) as [(z & Ez & Pz)|(_ & N)]; [|destruct (N y P)].
    rewrite Ez, (to_power_unique _ _ _ _ Hc Pz P). nfin.
    replace (- (b / (gb * gp)) * y) with (- (b / (gb * gp) * y)) by ring. rewrite <- E. reflexivity. }
  assert (Rd : forall beta, calculate_dimensionless_crest_freeboard (Fin H) (Fin q) beta (Fin gb) (Fin Hsw) (Fin c) (Fin cs) short crossing parapet (Fin g)
     = check_validity_range (Fin H) NaN beta (Fin Rc) NaN ;; ret (Fin (Rc / H))).
  { intros beta'. unfold calculate_dimensionless_crest_freeboard.
    rewrite (fitted_coefs _ _ _ _ _ _ _ _ F), bind_ret_l. cbv beta iota zeta. rewrite swell_value, Sw, bind_ret_l.
    cbn [isnan]. rewrite q_unit_fin by assumption.
    assert (0 < q / q_unit g H) by (apply Rdiv_lt_0_compat; assumption).
    assert (0 < q / q_unit g H * (1 / a)) by (apply Rmult_lt_0_compat; [assumption|apply Rdiv_lt_0_compat; lra]).
    nfin. rewrite Rs.
    replace (ln (q / q_unit g H * (1 / a)) * (- gb * gp / b)) with y.
    - apply npow_inverse in P; [|assumption]. rewrite P. nfin.
      replace ((Rc - rise crossing cs Hsw) / H + rise crossing cs Hsw / H) with (Rc / H) by (field; lra).
      replace (Rc / H * H) with Rc by (field; lra). reflexivity.
    - apply exp_relation in E; try assumption.
      rewrite ln_mult by (try assumption; apply Rdiv_lt_0_compat; lra).
      rewrite (ln_div 1 a), ln_1 by lra. set (l := ln (q / q_unit g H)) in *.
      apply Rmult_eq_reg_l with (b / (gb * gp)); [|apply Rgt_not_eq; apply Rdiv_lt_0_compat; assumption].
      rewrite E. field. repeat split; lra. }
  unfold qcall, Rcall, qc, Rcc. rewrite !Qd, !Rd. unfold check_validity_range.
  split; [|split; [|split]]; flags.
Qed.

(** Long-crested perpendicular waves one metre high on a crest a metre high. *)
Example C25_example : forall g, 0 < g ->
  value (qc #1 #1 #0 NaN #0 c_default c_swell_default false false false (Fin g))
  = Ok (Fin (0.2 * exp (- (4)) * sqrt g)).
Proof.
  intros g Hg. unfold c_default.
  rewrite (proj1 (C25_angle_factor (Fin g) #1 false false false 1 0.2 4 0.8 1 c_swell_default #0 0 #1 #1 fit_single_1)).
  replace (caisson_gamma 0.8 1 0) with 1 by (unfold caisson_gamma; replace (0 * PI / 180) with 0 by field; rewrite cos_0; lra).
  apply (C25_agree_with_relation g 1 false false false 1 0.2 4 0.8 1 1 0.4 0 #0); try lra; [constructor|].
  exists 1. split; [apply to_power_at_1; unfold rise; lra|]. unfold q_unit. replace (g * 1 ^ 3) with g by ring.
  assert (0 < sqrt g) by (apply sqrt_lt_R0; assumption).
  replace (- (4 / (1 * 1) * 1)) with (- (4)) by lra. field. lra.
Qed.
