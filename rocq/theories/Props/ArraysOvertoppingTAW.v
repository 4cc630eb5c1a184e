(** Property C64: the overtopping of TAW (2002) with arrays. *)
From Coq Require Import Reals Lra Lia List Bool Arith String.
From Verif.Lib Require Import Num Monad Arr ArrFlags ArrLoop RTac NTac.
From Verif.Spec Require Import Arrays ArrayFlags.
From Verif.Model Require Import CoreUtility.
From Verif.Model Require CorePhysics ArrCore RunupTAW2002 ArrRunupTAW2002 OvertoppingTAW2002 ArrOvertoppingTAW2002.
From Verif.Proofs Require Import Core CheckTac Arrays ArrayLoops ArrayFlags ArrayTaw ArrayTawDischarge.
Import ListNotations.
Open Scope nat_scope.

(** ** A single slope, the influence of the berm as one number or no berm

    The argument gamma_v is stretched to the shape of the others only: it enters one of
    the two equations that are stacked. *)

Lemma times_at (m : M (num * bool)) p (u : num) : value m = Ok p ->
  value (x <- m ;; (let '(q, b) := x in ret ((q * u)%num, b))) = Ok ((fst p * u)%num, snd p).
Proof. intros E. rewrite value_bind, E. destruct p. reflexivity. Qed.

(** The dimensionless discharge *)
Theorem C64_discharge_diml : forall Hm0 Tmm10 Rc cot down up beta B_berm db gamma_beta gamma_b gamma_f gamma_v sigma best ob bf,
  filled cot -> missing down \/ missing up -> oblique_by beta gamma_beta ob -> berm_by gamma_b B_berm bf ->
  neqb sigma #0%num = true \/ best = true ->
  flagged_within [Hm0; Tmm10; Rc; ob; bf; gamma_f; cot] gamma_v
    (ArrOvertoppingTAW2002.calculate_dimensionless_overtopping_discharge_q Hm0 Tmm10 Rc cot down up beta B_berm db gamma_beta gamma_b gamma_f gamma_v (float sigma) best)
    (fun at_ => value (OvertoppingTAW2002.calculate_dimensionless_overtopping_discharge_q (at_ Hm0) (at_ Tmm10) (at_ Rc) (at_ cot) (at_ down) (at_ up) (at_ beta) (at_ B_berm) (at_ db) (at_ gamma_beta) (at_ gamma_b) (at_ gamma_f) (at_ gamma_v) sigma best)).
Proof.
  intros * FC SN OB BF SG. split.
  - intros sh C SV. eapply gives_answers; [apply (q_gives Hm0 Tmm10 Rc cot down up beta B_berm db gamma_beta gamma_b gamma_f gamma_v ob bf sigma best); assumption|].
    intros i I. cbv beta. apply (q_at Hm0 Tmm10 Rc cot down up beta B_berm db gamma_beta gamma_b gamma_f gamma_v ob bf sigma best FC SN OB BF SG sh i C I).
  - apply (q_stops Hm0 Tmm10 Rc cot down up beta B_berm db gamma_beta gamma_b gamma_f gamma_v ob bf sigma best); assumption.
Qed.

(** The discharge *)
Theorem C64_discharge : forall Hm0 Tmm10 Rc cot down up beta B_berm db gamma_beta gamma_b gamma_f gamma_v sigma g best ob bf,
  filled cot -> missing down \/ missing up -> oblique_by beta gamma_beta ob -> berm_by gamma_b B_berm bf ->
  neqb sigma #0%num = true \/ best = true ->
  flagged_within [Hm0; Tmm10; Rc; ob; bf; gamma_f; cot] gamma_v
    (ArrOvertoppingTAW2002.calculate_overtopping_discharge_q Hm0 Tmm10 Rc cot down up beta B_berm db gamma_beta gamma_b gamma_f gamma_v (float sigma) (float g) best)
    (fun at_ => value (OvertoppingTAW2002.calculate_overtopping_discharge_q (at_ Hm0) (at_ Tmm10) (at_ Rc) (at_ cot) (at_ down) (at_ up) (at_ beta) (at_ B_berm) (at_ db) (at_ gamma_beta) (at_ gamma_b) (at_ gamma_f) (at_ gamma_v) sigma g best)).
Proof.
  intros * FC SN OB BF SG. split.
  - intros sh C SV. pose proof C as (F & _). eapply gives_answers;
      [eapply gives_times; [apply (q_gives Hm0 Tmm10 Rc cot down up beta B_berm db gamma_beta gamma_b gamma_f gamma_v ob bf sigma best); assumption|]|].
    + args_tac. autounfold with arrays. den_tac.
    + intros i I. cbv beta. exact (times_at _ _ _ (q_at Hm0 Tmm10 Rc cot down up beta B_berm db gamma_beta gamma_b gamma_f gamma_v ob bf sigma best FC SN OB BF SG sh i C I)).
  - intros N. apply stops_first. apply (q_stops Hm0 Tmm10 Rc cot down up beta B_berm db gamma_beta gamma_b gamma_f gamma_v ob bf sigma best); assumption.
Qed.

(** The dimensionless crest freeboard *)
Theorem C64_freeboard_diml : forall Hm0 Tmm10 q cot down up beta B_berm db gamma_beta gamma_b gamma_f gamma_v sigma g best ob bf,
  filled cot -> missing down \/ missing up -> oblique_by beta gamma_beta ob -> berm_by gamma_b B_berm bf ->
  neqb sigma #0%num = true \/ best = true ->
  flagged_within [Hm0; Tmm10; q; ob; bf; gamma_f; cot] gamma_v
    (ArrOvertoppingTAW2002.calculate_dimensionless_crest_freeboard Hm0 Tmm10 q cot down up beta B_berm db gamma_beta gamma_b gamma_f gamma_v (float sigma) (float g) best)
    (fun at_ => value (OvertoppingTAW2002.calculate_dimensionless_crest_freeboard (at_ Hm0) (at_ Tmm10) (at_ q) (at_ cot) (at_ down) (at_ up) (at_ beta) (at_ B_berm) (at_ db) (at_ gamma_beta) (at_ gamma_b) (at_ gamma_f) (at_ gamma_v) sigma g best)).
Proof.
  intros * FC SN OB BF SG. split.
  - intros sh C SV. eapply gives_answers; [apply (Rc_gives Hm0 Tmm10 q cot down up beta B_berm db gamma_beta gamma_b gamma_f gamma_v ob bf sigma best); assumption|].
    intros i I. cbv beta. apply (Rc_at Hm0 Tmm10 q cot down up beta B_berm db gamma_beta gamma_b gamma_f gamma_v ob bf sigma best FC SN OB BF SG g sh i C I).
  - apply (Rc_stops Hm0 Tmm10 q cot down up beta B_berm db gamma_beta gamma_b gamma_f gamma_v ob bf sigma best); assumption.
Qed.

(** The crest freeboard *)
Theorem C64_freeboard : forall Hm0 Tmm10 q cot down up beta B_berm db gamma_beta gamma_b gamma_f gamma_v sigma g best ob bf,
  filled cot -> missing down \/ missing up -> oblique_by beta gamma_beta ob -> berm_by gamma_b B_berm bf ->
  neqb sigma #0%num = true \/ best = true ->
  flagged_within [Hm0; Tmm10; q; ob; bf; gamma_f; cot] gamma_v
    (ArrOvertoppingTAW2002.calculate_crest_freeboard_Rc Hm0 Tmm10 q cot down up beta B_berm db gamma_beta gamma_b gamma_f gamma_v (float sigma) (float g) best)
    (fun at_ => value (OvertoppingTAW2002.calculate_crest_freeboard_Rc (at_ Hm0) (at_ Tmm10) (at_ q) (at_ cot) (at_ down) (at_ up) (at_ beta) (at_ B_berm) (at_ db) (at_ gamma_beta) (at_ gamma_b) (at_ gamma_f) (at_ gamma_v) sigma g best)).
Proof.
  intros * FC SN OB BF SG. split.
  - intros sh C SV. pose proof C as (F & _). eapply gives_answers;
      [eapply gives_times; [apply (Rc_gives Hm0 Tmm10 q cot down up beta B_berm db gamma_beta gamma_b gamma_f gamma_v ob bf sigma best); assumption|]|].
    + args_tac. autounfold with arrays. den_tac.
    + intros i I. cbv beta. exact (times_at _ _ _ (Rc_at Hm0 Tmm10 q cot down up beta B_berm db gamma_beta gamma_b gamma_f gamma_v ob bf sigma best FC SN OB BF SG g sh i C I)).
  - intros N. apply stops_first. apply (Rc_stops Hm0 Tmm10 q cot down up beta B_berm db gamma_beta gamma_b gamma_f gamma_v ob bf sigma best); assumption.
Qed.

(** ** Where it does not work *)

(** An array as influence factor of a wall, while everything else is one number. *)
Theorem C64_discharge_wall : forall Hm0 Tmm10 Rc q cot down up beta B_berm db gamma_beta gamma_b gamma_f gamma_v sigma g best ob bf,
  filled cot -> missing down \/ missing up -> oblique_by beta gamma_beta ob -> berm_by gamma_b B_berm bf ->
  neqb sigma #0%num = true \/ best = true ->
  Forall (fun a => shape a = None) [Hm0; Tmm10; Rc; q; ob; bf; gamma_f; cot] -> is_array gamma_v ->
  value (ArrOvertoppingTAW2002.calculate_dimensionless_overtopping_discharge_q Hm0 Tmm10 Rc cot down up beta B_berm db gamma_beta gamma_b gamma_f gamma_v (float sigma) best) = Err ValueError
  /\ value (ArrOvertoppingTAW2002.calculate_overtopping_discharge_q Hm0 Tmm10 Rc cot down up beta B_berm db gamma_beta gamma_b gamma_f gamma_v (float sigma) (float g) best) = Err ValueError
  /\ value (ArrOvertoppingTAW2002.calculate_dimensionless_crest_freeboard Hm0 Tmm10 q cot down up beta B_berm db gamma_beta gamma_b gamma_f gamma_v (float sigma) (float g) best) = Err ValueError
  /\ value (ArrOvertoppingTAW2002.calculate_crest_freeboard_Rc Hm0 Tmm10 q cot down up beta B_berm db gamma_beta gamma_b gamma_f gamma_v (float sigma) (float g) best) = Err ValueError.
Proof.
  intros * FC SN OB BF SG F V.
  assert (N : forall r, shape r = None -> ~ (exists sh, common [Hm0; Tmm10; r; ob; bf; gamma_f; cot] sh /\ stretches (shape gamma_v) sh)).
  { intros r Er (sh & (_ & [E|E]) & S).
    - subst sh. apply V. destruct S as [S|[(_ & S)|S]]; congruence.
    - args_tac. rewrite !Exists_cons, Exists_nil in E. assert (sh = None) as -> by intuition congruence.
      apply V. destruct S as [S|[(_ & S)|S]]; congruence. }
  assert (shape Rc = None) by (args_tac; assumption). assert (shape q = None) by (args_tac; assumption).
  repeat split.
  - apply (C64_discharge_diml Hm0 Tmm10 Rc cot down up beta B_berm db gamma_beta gamma_b gamma_f gamma_v sigma best ob bf); auto.
  - apply (C64_discharge Hm0 Tmm10 Rc cot down up beta B_berm db gamma_beta gamma_b gamma_f gamma_v sigma g best ob bf); auto.
  - apply (C64_freeboard_diml Hm0 Tmm10 q cot down up beta B_berm db gamma_beta gamma_b gamma_f gamma_v sigma g best ob bf); auto.
  - apply (C64_freeboard Hm0 Tmm10 q cot down up beta B_berm db gamma_beta gamma_b gamma_f gamma_v sigma g best ob bf); auto.
Qed.

(** Whatever stops the influence factors stops all four functions. *)
Lemma all_stop Hm0 Tmm10 Rc q cot down up beta B_berm db gamma_beta gamma_b gamma_f gamma_v sigma g best :
  stops (ArrOvertoppingTAW2002.influence_factors Hm0 Tmm10 cot down up beta B_berm db gamma_beta gamma_b gamma_f) ->
  neqb sigma #0%num = true \/ best = true ->
  value (ArrOvertoppingTAW2002.calculate_dimensionless_overtopping_discharge_q Hm0 Tmm10 Rc cot down up beta B_berm db gamma_beta gamma_b gamma_f gamma_v (float sigma) best) = Err ValueError
  /\ value (ArrOvertoppingTAW2002.calculate_overtopping_discharge_q Hm0 Tmm10 Rc cot down up beta B_berm db gamma_beta gamma_b gamma_f gamma_v (float sigma) (float g) best) = Err ValueError
  /\ value (ArrOvertoppingTAW2002.calculate_dimensionless_crest_freeboard Hm0 Tmm10 q cot down up beta B_berm db gamma_beta gamma_b gamma_f gamma_v (float sigma) (float g) best) = Err ValueError
  /\ value (ArrOvertoppingTAW2002.calculate_crest_freeboard_Rc Hm0 Tmm10 q cot down up beta B_berm db gamma_beta gamma_b gamma_f gamma_v (float sigma) (float g) best) = Err ValueError.
Proof.
  intros K SG.
  assert (Q : value (ArrOvertoppingTAW2002.calculate_dimensionless_overtopping_discharge_q Hm0 Tmm10 Rc cot down up beta B_berm db gamma_beta gamma_b gamma_f gamma_v (float sigma) best) = Err ValueError).
  { unfold ArrOvertoppingTAW2002.calculate_dimensionless_overtopping_discharge_q. destruct (OvertoppingTAW2002.coefficients best) as [d1 d3].
    apply (steps _ _ _ _ (corrections_arr sigma best SG)). apply stops_first, K. }
  assert (R : value (ArrOvertoppingTAW2002.calculate_dimensionless_crest_freeboard Hm0 Tmm10 q cot down up beta B_berm db gamma_beta gamma_b gamma_f gamma_v (float sigma) (float g) best) = Err ValueError).
  { unfold ArrOvertoppingTAW2002.calculate_dimensionless_crest_freeboard. destruct (OvertoppingTAW2002.coefficients best) as [d1 d3].
    apply (steps _ _ _ _ (corrections_arr sigma best SG)). apply stops_first, K. }
  repeat split; auto; apply stops_first; assumption.
Qed.

(** The influence factor of the berm as an array with several entries *)
Theorem C64_discharge_berm_factor : forall Hm0 Tmm10 Rc q cot down up beta B_berm db gamma_beta gamma_b gamma_f gamma_v sigma g best n,
  missing down \/ missing up -> shape gamma_b = Some n -> n <> 1 -> neqb sigma #0%num = true \/ best = true ->
  value (ArrOvertoppingTAW2002.calculate_dimensionless_overtopping_discharge_q Hm0 Tmm10 Rc cot down up beta B_berm db gamma_beta gamma_b gamma_f gamma_v (float sigma) best) = Err ValueError
  /\ value (ArrOvertoppingTAW2002.calculate_overtopping_discharge_q Hm0 Tmm10 Rc cot down up beta B_berm db gamma_beta gamma_b gamma_f gamma_v (float sigma) (float g) best) = Err ValueError
  /\ value (ArrOvertoppingTAW2002.calculate_dimensionless_crest_freeboard Hm0 Tmm10 q cot down up beta B_berm db gamma_beta gamma_b gamma_f gamma_v (float sigma) (float g) best) = Err ValueError
  /\ value (ArrOvertoppingTAW2002.calculate_crest_freeboard_Rc Hm0 Tmm10 q cot down up beta B_berm db gamma_beta gamma_b gamma_f gamma_v (float sigma) (float g) best) = Err ValueError.
Proof. intros. apply all_stop; auto. apply factors_several with n; auto. Qed.

(** A composite slope with an array for the wave height, the berm or one of the slopes *)
Theorem C64_discharge_composite : forall Hm0 Tmm10 Rc q cot down up beta B_berm db gamma_beta gamma_b gamma_f gamma_v sigma g best,
  filled down -> filled up -> all_finite Hm0 -> Exists is_array [Hm0; db; B_berm; down; up] -> neqb sigma #0%num = true \/ best = true ->
  value (ArrOvertoppingTAW2002.calculate_dimensionless_overtopping_discharge_q Hm0 Tmm10 Rc cot down up beta B_berm db gamma_beta gamma_b gamma_f gamma_v (float sigma) best) = Err ValueError
  /\ value (ArrOvertoppingTAW2002.calculate_overtopping_discharge_q Hm0 Tmm10 Rc cot down up beta B_berm db gamma_beta gamma_b gamma_f gamma_v (float sigma) (float g) best) = Err ValueError
  /\ value (ArrOvertoppingTAW2002.calculate_dimensionless_crest_freeboard Hm0 Tmm10 q cot down up beta B_berm db gamma_beta gamma_b gamma_f gamma_v (float sigma) (float g) best) = Err ValueError
  /\ value (ArrOvertoppingTAW2002.calculate_crest_freeboard_Rc Hm0 Tmm10 q cot down up beta B_berm db gamma_beta gamma_b gamma_f gamma_v (float sigma) (float g) best) = Err ValueError.
Proof. intros. apply all_stop; auto. apply factors_composite; auto. Qed.

(** A berm on a single slope whose influence has to be computed: an array anywhere but in
    gamma_b and the freeboard or discharge is a ValueError, also with one entry. *)
Theorem C64_discharge_berm : forall Hm0 Tmm10 Rc q cot down up beta B_berm db gamma_beta gamma_b gamma_f gamma_v sigma g best ob x,
  filled cot -> missing down \/ missing up -> oblique_by beta gamma_beta ob -> one_number gamma_b x -> isnan x = true ->
  all_positive B_berm -> all_positive Hm0 -> all_positive cot ->
  Exists is_array [Hm0; Tmm10; ob; gamma_f; cot; B_berm; db] -> neqb sigma #0%num = true \/ best = true ->
  value (ArrOvertoppingTAW2002.calculate_dimensionless_overtopping_discharge_q Hm0 Tmm10 Rc cot down up beta B_berm db gamma_beta gamma_b gamma_f gamma_v (float sigma) best) = Err ValueError
  /\ value (ArrOvertoppingTAW2002.calculate_overtopping_discharge_q Hm0 Tmm10 Rc cot down up beta B_berm db gamma_beta gamma_b gamma_f gamma_v (float sigma) (float g) best) = Err ValueError
  /\ value (ArrOvertoppingTAW2002.calculate_dimensionless_crest_freeboard Hm0 Tmm10 q cot down up beta B_berm db gamma_beta gamma_b gamma_f gamma_v (float sigma) (float g) best) = Err ValueError
  /\ value (ArrOvertoppingTAW2002.calculate_crest_freeboard_Rc Hm0 Tmm10 q cot down up beta B_berm db gamma_beta gamma_b gamma_f gamma_v (float sigma) (float g) best) = Err ValueError.
Proof. intros. apply all_stop; auto. apply factors_berm with ob x; auto. Qed.

(** ** Influence factors *)
Theorem C64_crest_wall : forall alpha,
  elementwise [alpha] (ArrOvertoppingTAW2002.calculate_influence_crest_wall_gamma_v alpha)
    (fun at_ => Ok (OvertoppingTAW2002.calculate_influence_crest_wall_gamma_v (at_ alpha))).
Proof. intros. autounfold with arrays. unfold ArrOvertoppingTAW2002.calculate_influence_crest_wall_gamma_v. elementwise_tac. reflexivity. Qed.

Theorem C64_oblique : forall beta c m,
  elementwise [beta] (ArrOvertoppingTAW2002.calculate_influence_oblique_waves_gamma_beta beta c m)
    (fun at_ => Ok (OvertoppingTAW2002.calculate_influence_oblique_waves_gamma_beta (at_ beta) c m)).
Proof.
  intros. unfold ArrOvertoppingTAW2002.calculate_influence_oblique_waves_gamma_beta. autounfold with arrays. unfold float. elementwise_tac. reflexivity.
Qed.

(** ** Examples *)
Open Scope arr_scope.
Ltac fill := split; [discriminate|repeat (constructor; [reflexivity|]); constructor].
Ltac missed := unfold missing; repeat (constructor; [reflexivity|]); constructor.
Ltac stretched := unfold stretches; cbn; auto 6.
Ltac commons := split; [repeat (constructor; [solve [stretched]|]); constructor|
  right; repeat first [apply Exists_cons_hd; reflexivity|apply Exists_cons_tl]].

Lemma example_oblique : oblique_by anan #1 #1.
Proof. left. split; [fill|reflexivity]. Qed.
Lemma example_berm : berm_by anan #0 #1.
Proof. exists NaN. split; [reflexivity|]. right. auto. Qed.
Lemma example_sigma : neqb #0%num #0%num = true \/ false = true.
Proof. left. exact (Reqb_true _ _ eq_refl). Qed.

(** Two crest levels and three wave heights do not go together; two crest levels on one
    slope without a berm give two discharges. *)
Example C64_discharge_example :
  (exists r m, value (ArrOvertoppingTAW2002.calculate_overtopping_discharge_q #1 #5 (Ar [#2; #3]%num) #3 anan anan anan #0 #0 #1 anan #1 #1 #0 #9.81 false) = Ok (r, m)
   /\ shape r = Some 2 /\ shape m = Some 2
   /\ exists b, at_ m 1 = Some b
      /\ value (OvertoppingTAW2002.calculate_overtopping_discharge_q #1 #5 #3 #3 NaN NaN NaN #0 #0 #1 NaN #1 #1 #0 #9.81 false)%num = Ok (place 1 r, b))
  /\ value (ArrOvertoppingTAW2002.calculate_overtopping_discharge_q (Ar [#1; #1; #1]%num) #5 (Ar [#2; #3]%num) #3 anan anan anan #0 #0 #1 anan #1 #1 #0 #9.81 false) = Err ValueError.
Proof.
  split.
  - destruct (C64_discharge #1 #5 (Ar [#2; #3]%num) #3 anan anan anan #0 #0 #1 anan #1 #1 #0%num #9.81%num false #1 #1) as (H & _);
      [fill|left; missed|exact example_oblique|exact example_berm|exact example_sigma|].
    destruct (H (Some 2)) as (r & m & E & Sr & Sm & P); [commons|stretched|].
    exists r, m. split; [exact E|]. split; [exact Sr|]. split; [exact Sm|].
    destruct (P 1) as (b & Eb & V); [cbn; lia|]. exists b. split; [exact Eb|exact V].
  - destruct (C64_discharge (Ar [#1; #1; #1]%num) #5 (Ar [#2; #3]%num) #3 anan anan anan #0 #0 #1 anan #1 #1 #0%num #9.81%num false #1 #1) as (_ & H);
      [fill|left; missed|exact example_oblique|exact example_berm|exact example_sigma|].
    apply H. intros (sh & (F & _) & _). args_tac.
    assert (K : forall n, stretches (Some (S (S n))) sh -> sh = Some (S (S n))) by (intros n [Q|[(Q & _)|Q]]; congruence).
    assert (K3 : sh = Some 3) by (apply (K 1); assumption). assert (K2 : sh = Some 2) by (apply (K 0); assumption). congruence.
Qed.

(** Three wall angles with one crest level are an error; so are two wave heights with a
    berm of which the influence is to be computed. *)
Example C64_discharge_stops_example :
  value (ArrOvertoppingTAW2002.calculate_overtopping_discharge_q #1 #5 #2 #3 anan anan anan #0 #0 #1 anan #1 (Ar [#1; #0.9; #0.8]%num) #0 #9.81 false) = Err ValueError
  /\ value (ArrOvertoppingTAW2002.calculate_overtopping_discharge_q (Ar [#1; #2]%num) #5 #2 #3 anan anan anan #4 #0 #1 anan #1 #1 #0 #9.81 false) = Err ValueError
  /\ value (ArrOvertoppingTAW2002.calculate_overtopping_discharge_q (Ar [#1; #2]%num) #5 #2 anan #3 #4 anan #4 #0 #1 #1 #1 #1 #0 #9.81 false) = Err ValueError
  /\ value (ArrOvertoppingTAW2002.calculate_overtopping_discharge_q #1 #5 #2 #3 anan anan anan #4 #0 #1 (Ar [#1; #0.9]%num) #1 #1 #0 #9.81 false) = Err ValueError.
Proof.
  split; [|split; [|split]].
  - apply (C64_discharge_wall #1 #5 #2 #2 #3 anan anan anan #0 #0 #1 anan #1 _ #0%num #9.81%num false #1 #1);
      [fill|left; missed|exact example_oblique|exact example_berm|exact example_sigma|repeat (constructor; [reflexivity|]); constructor|discriminate].
  - apply (C64_discharge_berm (Ar [#1; #2]%num) #5 #2 #2 #3 anan anan anan #4 #0 #1 anan #1 #1 #0%num #9.81%num false #1 NaN);
      [fill|left; missed|exact example_oblique|reflexivity|reflexivity
      |repeat (constructor; [eexists; split; [reflexivity|lra]|]); constructor..
      |apply Exists_cons_hd; discriminate|exact example_sigma].
  - apply (C64_discharge_composite (Ar [#1; #2]%num) #5 #2 #2 anan #3 #4 anan #4 #0 #1 #1 #1 #1 #0%num #9.81%num false);
      [fill|fill|repeat (constructor; [eexists; reflexivity|]); constructor|apply Exists_cons_hd; discriminate|exact example_sigma].
  - apply (C64_discharge_berm_factor #1 #5 #2 #2 #3 anan anan anan #4 #0 #1 (Ar [#1; #0.9]%num) #1 #1 #0%num #9.81%num false 2);
      [left; missed|reflexivity|discriminate|exact example_sigma].
Qed.

(** One crest freeboard for each of two discharges *)
Example C64_freeboard_example :
  exists r m, value (ArrOvertoppingTAW2002.calculate_crest_freeboard_Rc #1 #5 (Ar [#0.001; #0.01]%num) #3 anan anan anan #0 #0 #1 anan #1 #1 #0 #9.81 false) = Ok (r, m)
   /\ shape r = Some 2
   /\ exists b, at_ m 0 = Some b
      /\ value (OvertoppingTAW2002.calculate_crest_freeboard_Rc #1 #5 #0.001 #3 NaN NaN NaN #0 #0 #1 NaN #1 #1 #0 #9.81 false)%num = Ok (place 0 r, b).
Proof.
  destruct (C64_freeboard #1 #5 (Ar [#0.001; #0.01]%num) #3 anan anan anan #0 #0 #1 anan #1 #1 #0%num #9.81%num false #1 #1) as (H & _);
    [fill|left; missed|exact example_oblique|exact example_berm|exact example_sigma|].
  destruct (H (Some 2)) as (r & m & E & Sr & Sm & P); [commons|stretched|].
  exists r, m. split; [exact E|]. split; [exact Sr|].
  destruct (P 0) as (b & Eb & V); [cbn; lia|]. exists b. split; [exact Eb|exact V].
Qed.

Example C64_crest_wall_example :
  exists r, value (ArrOvertoppingTAW2002.calculate_influence_crest_wall_gamma_v (Ar [#45; #90]%num)) = Ok r /\ shape r = Some 2
  /\ place 0 r = #1%num /\ place 1 r = Fin 0.648.
Proof.
  destruct (proj1 (C64_crest_wall (Ar [#45; #90]%num)) (Some 2)) as (r & E & S & P).
  - commons.
  - exists (Some 2). repeat (constructor; [solve [stretched]|]); constructor.
  - exists r. split; [exact E|]. split; [exact S|].
    assert (P0 := P 0 ltac:(cbn; lia)). assert (P1 := P 1 ltac:(cbn; lia)). cbv beta in P0, P1. injection P0 as <-. injection P1 as <-.
    unfold OvertoppingTAW2002.calculate_influence_crest_wall_gamma_v.
    change (place 0 (Ar [#45; #90]%num)) with #45%num. change (place 1 (Ar [#45; #90]%num)) with #90%num.
    split; unfold nle; cbn [nlt neqb]; rewrite Rltb_or_eqb.
    + rewrite (Rleb_true 45 45) by lra. reflexivity.
    + rewrite (Rleb_false 90 45) by lra. nfin. f_equal. lra.
Qed.
