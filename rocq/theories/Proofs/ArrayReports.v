From Coq Require Import Reals List Bool Arith Lia Lra.
From Verif.Lib Require Import Num Monad Arr ArrFlags ArrLoop RTac NTac.
From Verif.Spec Require Import Arrays ArrayFlags ArrayWarnings ArrayCalls ArrayReports.
From Verif.Proofs Require Import Core CheckTac Arrays ArrayLoops ArrayFlags ArrayWarnings ArrayCalls ArrayTaw ArrayTawDischarge.
From Verif.Props Require Import ArraysRunupTAW.
From Verif.Model Require CorePhysics RunupTAW2002 OvertoppingTAW2002 ArrRunupTAW2002.
From Verif.Model Require Import CoreUtility ArrCore ArrOvertoppingTAW2002.
Import ListNotations.
Open Scope nat_scope.

(** ** Warnings of calls that work *)
Lemma warns_next {A B} (m : M A) a (k : A -> M B) : quiet m -> value m = Ok a -> warns (x <- m ;; k x) = warns (k a).
Proof. intros Q E. rewrite warns_bind, Q, E. reflexivity. Qed.
Lemma warns_tail {A B} (m : M A) (k : A -> M B) : (forall a, quiet (k a)) -> warns (x <- m ;; k x) = warns m.
Proof. intros Q. rewrite warns_bind. destruct (value m); [rewrite Q|]; apply app_nil_r. Qed.
Lemma warns_ext sh {A B} (call : M A) (m : M unit) (s : nat -> M B) (s' : nat -> M unit) :
  warns call = warns m -> (forall i, inside sh i -> warns (s i) = warns (s' i)) -> told sh m s' ->
  forall w, In w (warns call) <-> exists i, inside sh i /\ In w (warns (s i)).
Proof.
  intros E H (_ & T) w. rewrite E, T. split; intros (i & I & P); exists i; (split; [exact I|]); [rewrite H by exact I|rewrite <- H by exact I]; exact P.
Qed.

Lemma quiet_stacked_min x y : quiet (stacked_min (value_of x) (value_of y)).
Proof. unfold stacked_min, stacked, value_of. rewrite !bind_ret_l. destruct (shape_eqb _ _); [apply quiet_bcast|reflexivity]. Qed.
Lemma quiet_flag x y : quiet (stacked_min (value_of x) (value_of y) =? value_of y)%arr.
Proof. unfold cmp. apply quiet_lift2; [apply quiet_stacked_min|reflexivity]. Qed.
Lemma quiet_holds e : quiet e -> quiet (holds e).
Proof. intros Q. unfold holds. apply quiet_bind; [exact Q|]. intros c. unfold truth. destruct c as [b|[|b [|? ?]]]; reflexivity. Qed.

(** ** Influence factors of TAW (2002) *)
Lemma oblique_nan b c m : isnan b = false -> isnan (RunupTAW2002.calculate_influence_oblique_waves_gamma_beta b (Fin c) (Fin m)) = false.
Proof.
  intros N. unfold RunupTAW2002.calculate_influence_oblique_waves_gamma_beta, ngt. destruct b as [b| | |]; try discriminate; cbn.
  - destruct (Rltb b 0); cbn; destruct (Rltb _ _); reflexivity.
  - reflexivity.
  - reflexivity.
Qed.

Section Factors.
Variables (Hm0 Tmm10 cot down up beta B db gamma_beta gamma_b f ob bf : nums).
Hypotheses (FC : filled cot) (SN : missing down \/ missing up) (OB : oblique_by beta gamma_beta ob) (BF : berm_by gamma_b B bf).

Lemma quiet_factors : quiet (influence_factors Hm0 Tmm10 cot down up beta B db gamma_beta gamma_b f).
Proof.
  unfold influence_factors.
  apply quiet_bind; [destruct OB as [(F & _)|(N & F & _)]; [rewrite (calculate_beta_given _ _ F)|rewrite (calculate_beta_missing _ _ N F)]; reflexivity|].
  intros cb. apply quiet_bind; [unfold calculate_influence_oblique_waves_gamma_beta; destruct cb; autounfold with arrays; quiet_tac|].
  intros gb. rewrite (single_slope _ _ _ FC SN), bind_ret_l. unfold value_of at 1. rewrite bind_ret_l.
  apply quiet_bind; [autounfold with arrays; quiet_tac|]. intros k.
  assert (Q : forall b : nums, quiet (gamma_f_adj <- ArrRunupTAW2002.calculate_adjusted_influence_roughness_gamma_f f b k;;
     ret {| fac_gamma_beta := gb; fac_cot_alpha := cot; fac_ksi := k; fac_gamma_b := b; fac_gamma_f := gamma_f_adj |})).
  { intros b. apply quiet_bind; [autounfold with arrays; quiet_tac|]. reflexivity. }
  destruct BF as (x & O & [(X & _)|(X & EB & _)]); rewrite (one_given _ _ O), X, bind_ret_l.
  - unfold value_of at 1. rewrite bind_ret_l. apply Q.
  - apply quiet_bind; [|exact Q]. rewrite EB.
    apply quiet_bind; [unfold ArrRunupTAW2002.calculate_berm_length; rewrite (single_slope _ _ _ FC SN), bind_ret_l; cbv zeta iota; quiet_tac|].
    intros L. unfold ArrRunupTAW2002.iteration_procedure_gamma_b, ArrRunupTAW2002.iteration_procedure_gamma_b_body, quiet.
    assert (E : value (holds (lit 0%R =? lit 0%R)%arr) = Ok true).
    { unfold holds, cmp, lift2, value_of, lit. rewrite !bind_ret_l. cbn [bcast]. rewrite bind_ret_l. cbn. rewrite (Reqb_true _ _ eq_refl). reflexivity. }
    assert (QH : quiet (holds (lit 0%R =? lit 0%R)%arr)) by (apply quiet_holds; quiet_tac).
    rewrite (warns_next _ true); [reflexivity|unfold quiet; rewrite (warns_next _ true); [reflexivity|exact QH|exact E]|rewrite value_bind, E; reflexivity].
Qed.

(** The scalar function at one place *)
Lemma factors_at sh i : Forall (fun a => stretches (shape a) sh) [Hm0; Tmm10; ob; bf; f; cot] -> inside sh i ->
  OvertoppingTAW2002.influence_factors (place i Hm0) (place i Tmm10) (place i cot) (place i down) (place i up) (place i beta) (place i B) (place i db)
           (place i gamma_beta) (place i gamma_b) (place i f)
  = ret (v_beta beta gamma_beta i, place i cot, v_ksi Hm0 Tmm10 cot i, place i bf, v_adj Hm0 Tmm10 cot f bf i).
Proof.
  intros F I. args_tac. unfold OvertoppingTAW2002.influence_factors.
  assert (K : RunupTAW2002.check_calculate_gamma_beta (place i beta) (place i gamma_beta) = ret (isnan (place i gamma_beta))).
  { destruct OB as [(FB & EO)|(N & FB & EO)].
    - rewrite (filled_place gamma_beta sh i); auto; [|rewrite <- EO; assumption]. apply (beta_given_at gamma_beta sh); auto. rewrite <- EO. assumption.
    - replace (isnan (place i gamma_beta)) with true by (rewrite (missing_place _ _ N); reflexivity). apply (beta_missing_at beta gamma_beta sh); auto. rewrite <- EO. assumption. }
  rewrite K, bind_ret_l. cbv zeta. rewrite (single_slope_at cot down up sh i) by assumption. rewrite bind_ret_l, bind_ret_l.
  unfold v_beta, v_adj. fold (v_ksi Hm0 Tmm10 cot i).
  destruct BF as (x & O & [(X & EBf)|(X & EB & EBf)]).
  - assert (P : place i gamma_b = x) by (apply (one_place _ _ sh); auto; rewrite <- EBf; assumption).
    rewrite EBf, P, X, bind_ret_l. reflexivity.
  - assert (P : isnan (place i gamma_b) = true).
    { destruct gamma_b as [y|[|y [|? ?]]]; try discriminate O; injection O as ->; [exact X|].
      unfold place. cbn. destruct i; cbn; [exact X|]. exact X. }
    rewrite P, EB, EBf. unfold RunupTAW2002.calculate_berm_length. rewrite (single_slope_at cot down up sh i) by assumption.
    rewrite !bind_ret_l. cbv iota.
    unfold RunupTAW2002.iteration_procedure_gamma_b, RunupTAW2002.iteration_procedure_gamma_b_body.
    replace (neqb (place i (lit 0%R)) #0%num) with true by (symmetry; exact (Reqb_true _ _ eq_refl)). cbn [orb]. rewrite bind_ret_l. reflexivity.
Qed.

Lemma beta_nan sh i : stretches (shape ob) sh -> inside sh i -> isnan (v_beta beta gamma_beta i) = false.
Proof.
  intros S I. unfold v_beta. destruct OB as [(F & EO)|(N & F & EO)].
  - rewrite (filled_place gamma_beta sh i); auto; [|rewrite <- EO; exact S]. apply (filled_place gamma_beta sh i); auto. rewrite <- EO. exact S.
  - rewrite (missing_place _ _ N). cbn [isnan]. apply oblique_nan. apply (filled_place beta sh i); auto. rewrite <- EO. exact S.
Qed.

Lemma berm_filled : filled bf.
Proof.
  destruct BF as (x & O & [(X & ->)|(_ & _ & ->)]).
  - unfold one_number in O. split; [destruct gamma_b as [y|[|? ?]]; cbn in *; congruence|]. rewrite O. repeat constructor. exact X.
  - split; [discriminate|]. repeat constructor.
Qed.

(** The check that both overtopping functions end with *)
Lemma told_taw sh gb v : sh <> Some 0 -> Forall (fun a => stretches (shape a) sh) [Hm0; Tmm10; ob; bf; f; cot; beta; down; up; v; gb] ->
  Forall all_or_none [Hm0; Tmm10; f; beta; down; up; v] -> den sh (value_of gb) (v_beta beta gamma_beta) ->
  told sh (check_validity_range Hm0 Tmm10 beta cot down up f bf gb v)
    (fun i => OvertoppingTAW2002.check_validity_range (place i Hm0) (place i Tmm10) (place i beta) (place i cot) (place i down) (place i up) (place i f) (place i bf)
       (v_beta beta gamma_beta i) (place i v)).
Proof.
  intros NE F A D.
  assert (T : throughout sh (fun at_ => if isnan (at_ gamma_beta)
    then RunupTAW2002.calculate_influence_oblique_waves_gamma_beta (at_ beta) OvertoppingTAW2002.c_gamma_beta_default OvertoppingTAW2002.max_angle_default
    else at_ gamma_beta)).
  { right. intros i I. apply (beta_nan sh i); [args_tac; assumption|exact I]. }
  assert (Ab : all_or_none bf) by (left; apply berm_filled). assert (Ac : all_or_none cot) by (left; exact FC).
  args_tac. unfold check_validity_range, OvertoppingTAW2002.check_validity_range. told_tac.
Qed.
End Factors.

(** ** Overtopping of TAW (2002) *)
Lemma through {A B} (m : M A) (k : A -> M B) r : quiet m -> value (x <- m ;; k x) = Ok r ->
  exists a, value m = Ok a /\ value (k a) = Ok r /\ warns (x <- m ;; k x) = warns (k a).
Proof. intros Q E. apply step in E as (a & E & E'). exists a. split; [exact E|]. split; [exact E'|]. apply warns_next; assumption. Qed.

Lemma quiet_corrections s best : neqb s #0%num = true \/ best = true -> quiet (corrections (float s) best).
Proof.
  intros H. unfold corrections.
  assert (E : value (holds (float s =? lit 0%R)%arr) = Ok (neqb s #0%num)).
  { unfold holds, cmp, lift2, value_of, lit, float. rewrite !bind_ret_l. cbn [bcast]. rewrite bind_ret_l. reflexivity. }
  assert (Q : quiet (holds (float s =? lit 0%R)%arr)) by (unfold float; apply quiet_holds, quiet_lift2; reflexivity).
  unfold quiet. rewrite (warns_next _ _ _ Q E).
  destruct (neqb s #0%num); [reflexivity|]. destruct H as [H|H]; [discriminate|]. rewrite H. reflexivity.
Qed.
Lemma quiet_corrections_num s best : neqb s #0%num = true \/ best = true -> quiet (OvertoppingTAW2002.corrections s best).
Proof.
  intros H. unfold OvertoppingTAW2002.corrections. destruct (neqb s #0%num); [reflexivity|]. destruct H as [H|H]; [discriminate|]. rewrite H. reflexivity.
Qed.
Lemma corrections_lost s best : ~ (neqb s #0%num = true \/ best = true) ->
  corrections (float s) best = (warn (WText OvertoppingTAW2002.sigma_warning) ;; ret None)
  /\ OvertoppingTAW2002.corrections s best = (warn (WText OvertoppingTAW2002.sigma_warning) ;; ret None).
Proof.
  intros H. unfold corrections, OvertoppingTAW2002.corrections.
  destruct (neqb s #0%num) eqn:E; [exfalso; apply H; auto|]. destruct best; [exfalso; apply H; auto|]. split; [|reflexivity].
  change (holds (float s =? lit 0%R)%arr) with (@ret bool (neqb s #0%num)). rewrite bind_ret_l, E. reflexivity.
Qed.

Section Discharge.
Variables (Hm0 Tmm10 r cot down up beta B db gamma_beta gamma_b f v ob bf : nums) (s g : num) (best : bool).
Hypotheses (FC : filled cot) (SN : missing down \/ missing up) (OB : oblique_by beta gamma_beta ob) (BF : berm_by gamma_b B bf).

Let check_at i := OvertoppingTAW2002.check_validity_range (place i Hm0) (place i Tmm10) (place i beta) (place i cot) (place i down) (place i up) (place i f) (place i bf)
       (v_beta beta gamma_beta i) (place i v).

Lemma sigma_decided : (neqb s #0%num = true \/ best = true) \/ ~ (neqb s #0%num = true \/ best = true).
Proof. destruct (neqb s #0%num); [auto|]. destruct best; [auto|]. right. intros [H|H]; discriminate. Qed.

Lemma lost_places sh {A} (call : M A) (scalar : nat -> M (num * bool)) w0 : sh <> Some 0 -> warns call = [w0] -> (forall i, inside sh i -> warns (scalar i) = [w0]) ->
  forall w, In w (warns call) <-> exists i, inside sh i /\ In w (warns (scalar i)).
Proof.
  intros NE E H w. rewrite E. split.
  - intros I. exists 0. split; [apply some_place, NE|]. rewrite H by (apply some_place, NE). exact I.
  - intros (i & I & J). rewrite H in J by exact I. exact J.
Qed.

Lemma q_warned : warned [Hm0; Tmm10; r; ob; bf; f; cot] [beta; down; up; v] [Hm0; Tmm10; f; beta; down; up; v]
  (calculate_dimensionless_overtopping_discharge_q Hm0 Tmm10 r cot down up beta B db gamma_beta gamma_b f v (float s) best)
  (fun at_ => OvertoppingTAW2002.calculate_dimensionless_overtopping_discharge_q (at_ Hm0) (at_ Tmm10) (at_ r) (at_ cot) (at_ down) (at_ up)
    (at_ beta) (at_ B) (at_ db) (at_ gamma_beta) (at_ gamma_b) (at_ f) (at_ v) s best).
Proof.
  intros sh C F NE A. pose proof C as (FA & _).
  destruct (factors_ok Hm0 Tmm10 cot down up beta B db gamma_beta gamma_b f ob bf FC SN OB BF sh) as (gb & k & adj & EF & S1 & S2 & S3 & D1 & D2 & D3 & _);
    [args_tac; reached_tac|].
  pose proof (quiet_factors Hm0 Tmm10 cot down up beta B db gamma_beta gamma_b f ob bf FC SN OB BF) as QF.
  assert (FI : forall i, inside sh i -> OvertoppingTAW2002.influence_factors (place i Hm0) (place i Tmm10) (place i cot) (place i down) (place i up) (place i beta) (place i B) (place i db)
           (place i gamma_beta) (place i gamma_b) (place i f)
    = ret (v_beta beta gamma_beta i, place i cot, v_ksi Hm0 Tmm10 cot i, place i bf, v_adj Hm0 Tmm10 cot f bf i)).
  { intros i I. apply (factors_at Hm0 Tmm10 cot down up beta B db gamma_beta gamma_b f ob bf FC SN OB BF sh i); [args_tac; reached_tac|exact I]. }
  destruct sigma_decided as [SG|SG].
  - apply (warns_ext sh _ (check_validity_range Hm0 Tmm10 beta cot down up f bf gb v) _ check_at).
    + destruct (q_gives Hm0 Tmm10 r cot down up beta B db gamma_beta gamma_b f v ob bf s best FC SN OB BF SG sh) as (z & m & E & _);
        [exact C|args_tac; assumption|].
      unfold calculate_dimensionless_overtopping_discharge_q in *. destruct (OvertoppingTAW2002.coefficients best) as [d1 d3].
      rewrite (warns_next _ _ _ (quiet_corrections s best SG) (corrections_arr s best SG)).
      rewrite value_bind, (corrections_arr s best SG) in E.
      rewrite (warns_next _ _ _ QF EF). rewrite value_bind, EF in E. cbn [fac_cot_alpha fac_gamma_b fac_gamma_beta fac_ksi fac_gamma_f] in *.
      apply through in E as ((ea & eb) & _ & E & ->); [|unfold q_diml_equations, q_diml_max_equation; apply quiet_bind; [autounfold with arrays; quiet_tac|]; intros; apply quiet_bind; [autounfold with arrays; quiet_tac|reflexivity]].
      cbn [fst snd] in *. apply through in E as (y & _ & E & ->); [|apply quiet_stacked_min].
      apply through in E as (b & _ & E & ->); [|apply quiet_flag]. apply warns_tail. reflexivity.
    + intros i I. unfold OvertoppingTAW2002.calculate_dimensionless_overtopping_discharge_q. destruct (OvertoppingTAW2002.coefficients best) as [d1 d3].
      rewrite (warns_next _ _ _ (quiet_corrections_num s best SG) (corrections_num s best SG)). rewrite (FI i I), bind_ret_l. cbv iota zeta. apply warns_tail. reflexivity.
    + apply (told_taw Hm0 Tmm10 cot down up beta B gamma_beta gamma_b f ob bf); try assumption. args_tac. reached_tac.
  - destruct (corrections_lost s best SG) as (E1 & E2).
    apply (lost_places sh _ _ (WText OvertoppingTAW2002.sigma_warning)); [exact NE| |].
    + unfold calculate_dimensionless_overtopping_discharge_q. destruct (OvertoppingTAW2002.coefficients best) as [d1 d3].
      rewrite E1, warns_bind. cbn [bind warn ret value warns fst snd app]. rewrite (warns_next _ _ _ QF EF). reflexivity.
    + intros i I. unfold OvertoppingTAW2002.calculate_dimensionless_overtopping_discharge_q. destruct (OvertoppingTAW2002.coefficients best) as [d1 d3].
      rewrite E2, warns_bind. cbn [bind warn ret value warns fst snd app]. rewrite (FI i I). reflexivity.
Qed.
Lemma Rc_warned : warned [Hm0; Tmm10; r; ob; bf; f; cot] [beta; down; up; v] [Hm0; Tmm10; f; beta; down; up; v]
  (calculate_dimensionless_crest_freeboard Hm0 Tmm10 r cot down up beta B db gamma_beta gamma_b f v (float s) (float g) best)
  (fun at_ => OvertoppingTAW2002.calculate_dimensionless_crest_freeboard (at_ Hm0) (at_ Tmm10) (at_ r) (at_ cot) (at_ down) (at_ up)
    (at_ beta) (at_ B) (at_ db) (at_ gamma_beta) (at_ gamma_b) (at_ f) (at_ v) s g best).
Proof.
  intros sh C F NE A. pose proof C as (FA & _).
  destruct (factors_ok Hm0 Tmm10 cot down up beta B db gamma_beta gamma_b f ob bf FC SN OB BF sh) as (gb & k & adj & EF & S1 & S2 & S3 & D1 & D2 & D3 & _);
    [args_tac; reached_tac|].
  pose proof (quiet_factors Hm0 Tmm10 cot down up beta B db gamma_beta gamma_b f ob bf FC SN OB BF) as QF.
  assert (FI : forall i, inside sh i -> OvertoppingTAW2002.influence_factors (place i Hm0) (place i Tmm10) (place i cot) (place i down) (place i up) (place i beta) (place i B) (place i db)
           (place i gamma_beta) (place i gamma_b) (place i f)
    = ret (v_beta beta gamma_beta i, place i cot, v_ksi Hm0 Tmm10 cot i, place i bf, v_adj Hm0 Tmm10 cot f bf i)).
  { intros i I. apply (factors_at Hm0 Tmm10 cot down up beta B db gamma_beta gamma_b f ob bf FC SN OB BF sh i); [args_tac; reached_tac|exact I]. }
  destruct sigma_decided as [SG|SG].
  - apply (warns_ext sh _ (check_validity_range Hm0 Tmm10 beta cot down up f bf gb v) _ check_at).
    + destruct (Rc_gives Hm0 Tmm10 r cot down up beta B db gamma_beta gamma_b f v ob bf s best FC SN OB BF SG g sh) as (z & m & E & _);
        [exact C|args_tac; assumption|].
      unfold calculate_dimensionless_crest_freeboard in *. destruct (OvertoppingTAW2002.coefficients best) as [d1 d3].
      rewrite (warns_next _ _ _ (quiet_corrections s best SG) (corrections_arr s best SG)).
      rewrite value_bind, (corrections_arr s best SG) in E.
      rewrite (warns_next _ _ _ QF EF). rewrite value_bind, EF in E. cbn [fac_cot_alpha fac_gamma_b fac_gamma_beta fac_ksi fac_gamma_f] in *.
      apply through in E as ((ea & eb) & _ & E & ->); [|unfold Rc_diml_equations, Rc_diml_max_equation; apply quiet_bind; [autounfold with arrays; quiet_tac|]; intros; apply quiet_bind; [autounfold with arrays; quiet_tac|reflexivity]].
      cbn [fst snd] in *. apply through in E as (y & _ & E & ->); [|apply quiet_stacked_min].
      apply through in E as (b & _ & E & ->); [|apply quiet_flag]. apply warns_tail. reflexivity.
    + intros i I. unfold OvertoppingTAW2002.calculate_dimensionless_crest_freeboard. destruct (OvertoppingTAW2002.coefficients best) as [d1 d3].
      rewrite (warns_next _ _ _ (quiet_corrections_num s best SG) (corrections_num s best SG)). rewrite (FI i I), bind_ret_l. cbv iota zeta. apply warns_tail. reflexivity.
    + apply (told_taw Hm0 Tmm10 cot down up beta B gamma_beta gamma_b f ob bf); try assumption. args_tac. reached_tac.
  - destruct (corrections_lost s best SG) as (E1 & E2).
    apply (lost_places sh _ _ (WText OvertoppingTAW2002.sigma_warning)); [exact NE| |].
    + unfold calculate_dimensionless_crest_freeboard. destruct (OvertoppingTAW2002.coefficients best) as [d1 d3].
      rewrite E1, warns_bind. cbn [bind warn ret value warns fst snd app]. rewrite (warns_next _ _ _ QF EF). reflexivity.
    + intros i I. unfold OvertoppingTAW2002.calculate_dimensionless_crest_freeboard. destruct (OvertoppingTAW2002.coefficients best) as [d1 d3].
      rewrite E2, warns_bind. cbn [bind warn ret value warns fst snd app]. rewrite (FI i I). reflexivity.
Qed.
End Discharge.

Lemma warned_tail {A A' B B'} args beside checked (call : M A) (scalar : (nums -> num) -> M B) (k : A -> M A') (k' : (nums -> num) -> B -> M B') :
  warned args beside checked call scalar -> (forall a, quiet (k a)) -> (forall at_ b, quiet (k' at_ b)) ->
  warned args beside checked (x <- call ;; k x) (fun at_ => x <- scalar at_ ;; k' at_ x).
Proof.
  intros H Q Q' sh C F NE V w. rewrite warns_tail by exact Q. rewrite (H sh C F NE V w).
  split; intros (i & I & J); exists i; (split; [exact I|]); [rewrite warns_tail by apply Q'; exact J|rewrite warns_tail in J by apply Q'; exact J].
Qed.

Lemma quiet_oblique beta c m : quiet (ArrRunupTAW2002.calculate_influence_oblique_waves_gamma_beta beta c m).
Proof. autounfold with arrays. quiet_tac. Qed.

(** ** Run-up of TAW (2002) *)
Section Runup.
Variables (Hm0 Tmm10 beta gamma_beta gamma_b f B db cot down up ob : nums) (c1 c2 c3 c4 : num) (best : bool) (x : num).
Hypotheses (FC : filled cot) (SN : missing down \/ missing up) (O : one_number gamma_b x) (X : isnan x = false) (OB : oblique_by beta gamma_beta ob).

Let v_ob i := oblique (place i beta) (place i gamma_beta).
Lemma oblique_filled sh i : stretches (shape ob) sh -> inside sh i -> isnan (v_ob i) = false.
Proof.
  intros S I. unfold v_ob, oblique. destruct OB as [(F & EO)|(N & F & EO)].
  - rewrite (filled_place gamma_beta sh i); auto; [|rewrite <- EO; exact S]. apply (filled_place gamma_beta sh i); auto. rewrite <- EO. exact S.
  - rewrite (missing_place _ _ N). cbn [isnan]. apply oblique_nan. apply (filled_place beta sh i); auto. rewrite <- EO. exact S.
Qed.

Lemma quiet_min_eqs e1 e2 (chk : M unit) : quiet e1 -> quiet e2 ->
  forall r, value (a <- e1 ;; b <- e2 ;; z <- stacked_min (value_of a) (value_of b) ;; m <- (stacked_min (value_of a) (value_of b) =? value_of b)%arr ;; chk ;; ret (z, m)) = Ok r ->
  warns (a <- e1 ;; b <- e2 ;; z <- stacked_min (value_of a) (value_of b) ;; m <- (stacked_min (value_of a) (value_of b) =? value_of b)%arr ;; chk ;; ret (z, m)) = warns chk.
Proof.
  intros Q1 Q2 r E. apply through in E as (a & _ & E & ->); [|exact Q1]. apply through in E as (b & _ & E & ->); [|exact Q2].
  apply through in E as (z & _ & E & ->); [|apply quiet_stacked_min]. apply through in E as (m & _ & E & ->); [|apply quiet_flag].
  apply warns_tail. reflexivity.
Qed.

Lemma core_warns (gb b k : nums) d1 d2 d3 d4 r : value (ArrRunupTAW2002.dimensionless_runup Hm0 Tmm10 gb b f cot k d1 d2 d3 d4) = Ok r ->
  warns (ArrRunupTAW2002.dimensionless_runup Hm0 Tmm10 gb b f cot k d1 d2 d3 d4) = warns (ArrRunupTAW2002.check_validity_range Hm0 Tmm10 f b gb cot).
Proof.
  unfold ArrRunupTAW2002.dimensionless_runup. intros E. apply through in E as (adj & _ & E & ->); [|autounfold with arrays; quiet_tac].
  refine (quiet_min_eqs _ _ _ _ _ r E); autounfold with arrays; quiet_tac.
Qed.

Lemma told_runup sh gb : sh <> Some 0 -> Forall (fun a => stretches (shape a) sh) [Hm0; Tmm10; ob; gamma_b; f; cot; gb] ->
  Forall all_or_none [Hm0; Tmm10; f] -> den sh (value_of gb) v_ob ->
  told sh (ArrRunupTAW2002.check_validity_range Hm0 Tmm10 f gamma_b gb cot)
    (fun i => RunupTAW2002.check_validity_range (place i Hm0) (place i Tmm10) (place i f) (place i gamma_b) (v_ob i) (place i cot)).
Proof.
  intros NE F A D.
  assert (T : throughout sh (fun at_ => oblique (at_ beta) (at_ gamma_beta))).
  { right. intros i I. apply (oblique_filled sh i); [args_tac; assumption|exact I]. }
  assert (Ab : all_or_none gamma_b).
  { left. unfold one_number in O. split; [destruct gamma_b as [y|[|? ?]]; cbn in *; congruence|]. rewrite O. repeat constructor. exact X. }
  assert (Ac : all_or_none cot) by (left; exact FC).
  args_tac. unfold ArrRunupTAW2002.check_validity_range, RunupTAW2002.check_validity_range. told_tac.
Qed.

Let check_up i := RunupTAW2002.check_validity_range (place i Hm0) (place i Tmm10) (place i f) (place i gamma_b) (v_ob i) (place i cot).
Lemma body_warned rec rec' : warned [Hm0; Tmm10; ob; gamma_b; f; cot] [] [Hm0; Tmm10; f]
  (ArrRunupTAW2002.dimensionless_body rec Hm0 Tmm10 beta gamma_beta gamma_b f B db cot down up c1 c2 c3 c4 best)
  (fun at_ => RunupTAW2002.dimensionless_body rec' (at_ Hm0) (at_ Tmm10) (at_ beta) (at_ gamma_beta) (at_ gamma_b) (at_ f) (at_ B) (at_ db)
     (at_ cot) (at_ down) (at_ up) c1 c2 c3 c4 best).
Proof.
  intros sh C _ NE A.
  assert (SC : forall i, inside sh i ->
    warns (RunupTAW2002.dimensionless_body rec' (place i Hm0) (place i Tmm10) (place i beta) (place i gamma_beta) (place i gamma_b) (place i f) (place i B) (place i db)
      (place i cot) (place i down) (place i up) c1 c2 c3 c4 best)
    = warns (RunupTAW2002.check_validity_range (place i Hm0) (place i Tmm10) (place i f) (place i gamma_b) (v_ob i) (place i cot))).
  { intros i I. destruct C as (FA & _). args_tac. unfold RunupTAW2002.dimensionless_body, v_ob, oblique.
    destruct (RunupTAW2002.best_fit_coefficients best c1 c2 c3 c4) as [[[d1 d2] d3] d4].
    assert (K : RunupTAW2002.check_calculate_gamma_beta (place i beta) (place i gamma_beta) = ret (isnan (place i gamma_beta))).
    { destruct OB as [(FB & EO)|(N & FB & EO)].
      - rewrite (filled_place gamma_beta sh i); auto; [|rewrite <- EO; assumption]. apply (beta_given_at gamma_beta sh); auto. rewrite <- EO. assumption.
      - replace (isnan (place i gamma_beta)) with true by (rewrite (missing_place _ _ N); reflexivity). apply (beta_missing_at beta gamma_beta sh); auto. rewrite <- EO. assumption. }
    rewrite K, bind_ret_l. cbv zeta. rewrite (single_slope_at cot down up sh i) by assumption. rewrite bind_ret_l, bind_ret_l.
    rewrite (one_place _ _ _ _ O ltac:(eassumption) I) at 1. rewrite X, bind_ret_l. apply warns_tail. reflexivity. }
  destruct OB as [(FB & EO)|(N & FB & EO)].
  - destruct (given_gives Hm0 Tmm10 beta gamma_beta gamma_b f B db cot down up c1 c2 c3 c4 best x FC SN O X rec sh FB) as (z & m & E & _); [rewrite <- EO; exact C|].
    apply (warns_ext sh _ (ArrRunupTAW2002.check_validity_range Hm0 Tmm10 f gamma_b gamma_beta cot) _ check_up); [|exact SC|].
    + rewrite (body_given _ _ _ _ _ _ _ _ _ _ _ _ _ _ _ _ _ x) in * by assumption.
      destruct (RunupTAW2002.best_fit_coefficients best c1 c2 c3 c4) as [[[d1 d2] d3] d4].
      apply through in E as (k & _ & E & ->); [|autounfold with arrays; quiet_tac]. apply (core_warns _ _ _ _ _ _ _ _ E).
    + apply told_runup; [exact NE| |args_tac; reached_tac|].
      * destruct C as (FA & _). args_tac. try rewrite EO in *. reached_tac.
      * destruct C as (FA & _). args_tac. try rewrite EO in *. eapply den_ext; [apply den_leaf; assumption|]. intros i I. unfold v_ob, oblique. rewrite (filled_place gamma_beta sh i); auto.
  - destruct (angle_gives Hm0 Tmm10 beta gamma_beta gamma_b f B db cot down up c1 c2 c3 c4 best x FC SN O X rec sh N FB) as (z & m & E & _); [rewrite <- EO; exact C|].
    rewrite (body_angle _ _ _ _ _ _ _ _ _ _ _ _ _ _ _ _ _ x) in * by assumption.
    destruct (RunupTAW2002.best_fit_coefficients best c1 c2 c3 c4) as [[[d1 d2] d3] d4].
    pose proof told_runup as TR. destruct C as (FA & _). args_tac. try rewrite EO in *.
    name sh (ArrRunupTAW2002.calculate_influence_oblique_waves_gamma_beta beta RunupTAW2002.c_gamma_beta_default RunupTAW2002.max_angle_default)
      (fun i => RunupTAW2002.calculate_influence_oblique_waves_gamma_beta (place i beta) RunupTAW2002.c_gamma_beta_default RunupTAW2002.max_angle_default)
      [shape beta] gb.
    apply (warns_ext sh _ (ArrRunupTAW2002.check_validity_range Hm0 Tmm10 f gamma_b gb cot) _ check_up); [|exact SC|].
    + rewrite value_bind, Egb in E. rewrite (warns_next _ _ _ (quiet_oblique _ _ _) Egb).
      apply through in E as (k & _ & E & ->); [|autounfold with arrays; quiet_tac]. apply (core_warns _ _ _ _ _ _ _ _ E).
    + apply TR; [exact NE|try rewrite EO; reached_tac|reached_tac|].
      eapply den_ext; [exact Dgb|]. intros i I. unfold v_ob, oblique. rewrite (missing_place _ _ N). reflexivity.
Qed.
End Runup.
