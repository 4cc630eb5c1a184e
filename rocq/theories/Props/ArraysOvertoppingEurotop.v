(** Property C66: wave overtopping of EurOtop (2007) and EurOtop (2018) with arrays. *)
From Coq Require Import Reals Lra Lia List Bool Arith.
From Verif.Lib Require Import Num Monad Arr ArrFlags ArrLoop RTac NTac.
From Verif.Spec Require Import Arrays ArrayFlags ArrayStacks.
From Verif.Model Require OvertoppingEurotop2007 OvertoppingEurotop2018 ArrOvertoppingEurotop2007 ArrOvertoppingEurotop2018.
From Verif.Proofs Require Import Arrays ArrayFlags ArrayTaw ArrayTawDischarge ArrayStacks ArrayEurotop.
Import ListNotations.
Open Scope nat_scope.

(** ** EurOtop (2007): rubble mounds *)

Theorem C66_eurotop2007_q_diml : forall Hm0 Tmm10 Rc beta gamma_beta gamma_f cot c2 c3 best ob,
  oblique_by beta gamma_beta ob ->
  place_by_place [Hm0; Tmm10; Rc; ob; gamma_f; cot]
    (ArrOvertoppingEurotop2007.calculate_dimensionless_overtopping_discharge_q_rubble_mound Hm0 Tmm10 Rc beta gamma_beta gamma_f cot c2 c3 best)
    (fun at_ => value (OvertoppingEurotop2007.calculate_dimensionless_overtopping_discharge_q_rubble_mound
       (at_ Hm0) (at_ Tmm10) (at_ Rc) (at_ beta) (at_ gamma_beta) (at_ gamma_f) (at_ cot) c2 c3 best)).
Proof. intros. apply q2007. assumption. Qed.

Theorem C66_eurotop2007_q : forall Hm0 Tmm10 Rc beta gamma_beta gamma_f cot c2 c3 best g ob,
  oblique_by beta gamma_beta ob ->
  place_by_place [Hm0; Tmm10; Rc; ob; gamma_f; cot]
    (ArrOvertoppingEurotop2007.calculate_overtopping_discharge_q_rubble_mound Hm0 Tmm10 Rc beta gamma_beta gamma_f cot c2 c3 best (float g))
    (fun at_ => value (OvertoppingEurotop2007.calculate_overtopping_discharge_q_rubble_mound
       (at_ Hm0) (at_ Tmm10) (at_ Rc) (at_ beta) (at_ gamma_beta) (at_ gamma_f) (at_ cot) c2 c3 best g)).
Proof. intros. apply q2007_dim. assumption. Qed.

Theorem C66_eurotop2007_Rc_diml : forall Hm0 Tmm10 q beta gamma_beta gamma_f cot c2 c3 best ob,
  oblique_by beta gamma_beta ob ->
  place_by_place [Hm0; Tmm10; q; ob; gamma_f; cot]
    (ArrOvertoppingEurotop2007.calculate_dimensionless_crest_freeboard_rubble_mound Hm0 Tmm10 q beta gamma_beta gamma_f cot c2 c3 best)
    (fun at_ => value (OvertoppingEurotop2007.calculate_dimensionless_crest_freeboard_rubble_mound
       (at_ Hm0) (at_ Tmm10) (at_ q) (at_ beta) (at_ gamma_beta) (at_ gamma_f) (at_ cot) c2 c3 best)).
Proof. intros. apply Rc2007. assumption. Qed.

Theorem C66_eurotop2007_Rc : forall Hm0 Tmm10 q beta gamma_beta gamma_f cot c2 c3 best ob,
  oblique_by beta gamma_beta ob ->
  place_by_place [Hm0; Tmm10; q; ob; gamma_f; cot]
    (ArrOvertoppingEurotop2007.calculate_crest_freeboard_Rc_rubble_mound Hm0 Tmm10 q beta gamma_beta gamma_f cot c2 c3 best)
    (fun at_ => value (OvertoppingEurotop2007.calculate_crest_freeboard_Rc_rubble_mound
       (at_ Hm0) (at_ Tmm10) (at_ q) (at_ beta) (at_ gamma_beta) (at_ gamma_f) (at_ cot) c2 c3 best)).
Proof. intros. apply Rc2007_dim. assumption. Qed.

(** ** EurOtop (2018) *)

(** The equation and its limit are put on top of each other.  The limit of the discharge has neither
    the wave period nor the slope in it. *)
Theorem C66_eurotop2018_q_diml : forall Hm0 Tmm10 Rc beta gamma_beta gamma_b gamma_f gamma_v gamma_star B_berm db cot down up c1 c2 c3 c4 best ob,
  filled cot -> missing down \/ missing up -> oblique_with beta gamma_beta gamma_f ob -> one_number B_berm (Fin 0) ->
  flagged_both [Hm0; Tmm10; Rc; ob; gamma_f; cot; gamma_v] [Hm0; Rc; ob; gamma_f; gamma_star]
    (ArrOvertoppingEurotop2018.calculate_dimensionless_overtopping_discharge_q Hm0 Tmm10 Rc beta gamma_beta gamma_b gamma_f gamma_v gamma_star B_berm db cot down up c1 c2 c3 c4 best)
    (fun at_ => value (OvertoppingEurotop2018.calculate_dimensionless_overtopping_discharge_q
       (at_ Hm0) (at_ Tmm10) (at_ Rc) (at_ beta) (at_ gamma_beta) (at_ gamma_b) (at_ gamma_f) (at_ gamma_v) (at_ gamma_star) (at_ B_berm) (at_ db) (at_ cot) (at_ down) (at_ up) c1 c2 c3 c4 best)).
Proof. intros. apply q2018; assumption. Qed.

Theorem C66_eurotop2018_q : forall Hm0 Tmm10 Rc beta gamma_beta gamma_b gamma_f gamma_v gamma_star B_berm db cot down up c1 c2 c3 c4 best g ob,
  filled cot -> missing down \/ missing up -> oblique_with beta gamma_beta gamma_f ob -> one_number B_berm (Fin 0) ->
  flagged_both [Hm0; Tmm10; Rc; ob; gamma_f; cot; gamma_v] [Hm0; Rc; ob; gamma_f; gamma_star]
    (ArrOvertoppingEurotop2018.calculate_overtopping_discharge_q Hm0 Tmm10 Rc beta gamma_beta gamma_b gamma_f gamma_v gamma_star B_berm db cot down up c1 c2 c3 c4 best (float g))
    (fun at_ => value (OvertoppingEurotop2018.calculate_overtopping_discharge_q
       (at_ Hm0) (at_ Tmm10) (at_ Rc) (at_ beta) (at_ gamma_beta) (at_ gamma_b) (at_ gamma_f) (at_ gamma_v) (at_ gamma_star) (at_ B_berm) (at_ db) (at_ cot) (at_ down) (at_ up) c1 c2 c3 c4 best g)).
Proof. intros. apply q2018_dim; assumption. Qed.

Theorem C66_eurotop2018_Rc_diml : forall Hm0 Tmm10 q beta gamma_beta gamma_b gamma_f gamma_v gamma_star B_berm db cot down up c1 c2 c3 c4 best g ob,
  filled cot -> missing down \/ missing up -> oblique_with beta gamma_beta gamma_f ob -> one_number B_berm (Fin 0) ->
  flagged_both [Hm0; Tmm10; q; ob; gamma_f; cot; gamma_v] [Hm0; Tmm10; q; ob; gamma_f; cot; gamma_star]
    (ArrOvertoppingEurotop2018.calculate_dimensionless_crest_freeboard Hm0 Tmm10 q beta gamma_beta gamma_b gamma_f gamma_v gamma_star B_berm db cot down up c1 c2 c3 c4 best (float g))
    (fun at_ => value (OvertoppingEurotop2018.calculate_dimensionless_crest_freeboard
       (at_ Hm0) (at_ Tmm10) (at_ q) (at_ beta) (at_ gamma_beta) (at_ gamma_b) (at_ gamma_f) (at_ gamma_v) (at_ gamma_star) (at_ B_berm) (at_ db) (at_ cot) (at_ down) (at_ up) c1 c2 c3 c4 best g)).
Proof. intros. apply Rc2018; assumption. Qed.

Theorem C66_eurotop2018_Rc : forall Hm0 Tmm10 q beta gamma_beta gamma_b gamma_f gamma_v gamma_star B_berm db cot down up c1 c2 c3 c4 best g ob,
  filled cot -> missing down \/ missing up -> oblique_with beta gamma_beta gamma_f ob -> one_number B_berm (Fin 0) ->
  flagged_both [Hm0; Tmm10; q; ob; gamma_f; cot; gamma_v] [Hm0; Tmm10; q; ob; gamma_f; cot; gamma_star]
    (ArrOvertoppingEurotop2018.calculate_crest_freeboard_Rc Hm0 Tmm10 q beta gamma_beta gamma_b gamma_f gamma_v gamma_star B_berm db cot down up c1 c2 c3 c4 best (float g))
    (fun at_ => value (OvertoppingEurotop2018.calculate_crest_freeboard_Rc
       (at_ Hm0) (at_ Tmm10) (at_ q) (at_ beta) (at_ gamma_beta) (at_ gamma_b) (at_ gamma_f) (at_ gamma_v) (at_ gamma_star) (at_ B_berm) (at_ db) (at_ cot) (at_ down) (at_ up) c1 c2 c3 c4 best g)).
Proof. intros. apply Rc2018_dim; assumption. Qed.

(** *** Rubble mounds *)
Theorem C66_eurotop2018_rubble_q_diml : forall Hm0 Tmm10 Rc beta gamma_beta gamma_f B_berm db cot down up c2 c3 best ob,
  filled cot -> missing down \/ missing up -> oblique_with beta gamma_beta gamma_f ob ->
  place_by_place [Hm0; Tmm10; Rc; ob; gamma_f; cot]
    (ArrOvertoppingEurotop2018.calculate_dimensionless_overtopping_discharge_q_rubble_mound Hm0 Tmm10 Rc beta gamma_beta gamma_f B_berm db cot down up c2 c3 best)
    (fun at_ => value (OvertoppingEurotop2018.calculate_dimensionless_overtopping_discharge_q_rubble_mound
       (at_ Hm0) (at_ Tmm10) (at_ Rc) (at_ beta) (at_ gamma_beta) (at_ gamma_f) (at_ B_berm) (at_ db) (at_ cot) (at_ down) (at_ up) c2 c3 best)).
Proof. intros. apply q_rm2018; assumption. Qed.

Theorem C66_eurotop2018_rubble_q : forall Hm0 Tmm10 Rc beta gamma_beta gamma_f B_berm db cot down up c2 c3 best g ob,
  filled cot -> missing down \/ missing up -> oblique_with beta gamma_beta gamma_f ob ->
  place_by_place [Hm0; Tmm10; Rc; ob; gamma_f; cot]
    (ArrOvertoppingEurotop2018.calculate_overtopping_discharge_q_rubble_mound Hm0 Tmm10 Rc beta gamma_beta gamma_f B_berm db cot down up c2 c3 best (float g))
    (fun at_ => value (OvertoppingEurotop2018.calculate_overtopping_discharge_q_rubble_mound
       (at_ Hm0) (at_ Tmm10) (at_ Rc) (at_ beta) (at_ gamma_beta) (at_ gamma_f) (at_ B_berm) (at_ db) (at_ cot) (at_ down) (at_ up) c2 c3 best g)).
Proof. intros. apply q_rm2018_dim; assumption. Qed.

Theorem C66_eurotop2018_rubble_Rc_diml : forall Hm0 Tmm10 q beta gamma_beta gamma_f B_berm db cot down up c2 c3 best g ob,
  filled cot -> missing down \/ missing up -> oblique_with beta gamma_beta gamma_f ob ->
  place_by_place [Hm0; Tmm10; q; ob; gamma_f; cot]
    (ArrOvertoppingEurotop2018.calculate_dimensionless_crest_freeboard_rubble_mound Hm0 Tmm10 q beta gamma_beta gamma_f B_berm db cot down up c2 c3 best (float g))
    (fun at_ => value (OvertoppingEurotop2018.calculate_dimensionless_crest_freeboard_rubble_mound
       (at_ Hm0) (at_ Tmm10) (at_ q) (at_ beta) (at_ gamma_beta) (at_ gamma_f) (at_ B_berm) (at_ db) (at_ cot) (at_ down) (at_ up) c2 c3 best g)).
Proof. intros. apply Rc_rm2018; assumption. Qed.

Theorem C66_eurotop2018_rubble_Rc : forall Hm0 Tmm10 q beta gamma_beta gamma_f B_berm db cot down up c2 c3 best g ob,
  filled cot -> missing down \/ missing up -> oblique_with beta gamma_beta gamma_f ob ->
  place_by_place [Hm0; Tmm10; q; ob; gamma_f; cot]
    (ArrOvertoppingEurotop2018.calculate_crest_freeboard_Rc_rubble_mound Hm0 Tmm10 q beta gamma_beta gamma_f B_berm db cot down up c2 c3 best (float g))
    (fun at_ => value (OvertoppingEurotop2018.calculate_crest_freeboard_Rc_rubble_mound
       (at_ Hm0) (at_ Tmm10) (at_ q) (at_ beta) (at_ gamma_beta) (at_ gamma_f) (at_ B_berm) (at_ db) (at_ cot) (at_ down) (at_ up) c2 c3 best g)).
Proof. intros. apply Rc_rm2018_dim; assumption. Qed.

(** ** Where EurOtop (2018) does not work *)

Lemma no_array_shape (l : list nums) sh : Forall (fun a : nums => ~ is_array a) l -> sh = None \/ Exists (fun a => shape a = sh) l -> sh = None.
Proof.
  intros N [->|E]; [reflexivity|]. apply Exists_exists in E as (a & I & <-). rewrite Forall_forall in N. specialize (N a I).
  unfold is_array in N. destruct (shape a); [contradiction N; discriminate|reflexivity].
Qed.
Lemma array_none (l : list nums) : Forall (fun a => stretches (shape a) None) l -> Exists is_array l -> False.
Proof.
  intros F E. apply Exists_exists in E as (a & I & N). rewrite Forall_forall in F. destruct (F a I) as [Q|[(_ & Q)|Q]]; [apply N, Q|congruence|apply N, Q].
Qed.

(** The discharge takes no array of wave periods, of slopes or of walls without an array among
    the arguments of the limit, even when all arguments broadcast together ... *)
Theorem C66_eurotop2018_q_diml_periods : forall Hm0 Tmm10 Rc beta gamma_beta gamma_b gamma_f gamma_v gamma_star B_berm db cot down up c1 c2 c3 c4 best ob,
  filled cot -> missing down \/ missing up -> oblique_with beta gamma_beta gamma_f ob -> one_number B_berm (Fin 0) ->
  Forall (fun a : nums => ~ is_array a) [Hm0; Rc; ob; gamma_f; gamma_star] -> Exists is_array [Tmm10; cot; gamma_v] ->
  value (ArrOvertoppingEurotop2018.calculate_dimensionless_overtopping_discharge_q Hm0 Tmm10 Rc beta gamma_beta gamma_b gamma_f gamma_v gamma_star B_berm db cot down up c1 c2 c3 c4 best) = Err ValueError.
Proof.
  intros * FC SN OB NB N X. apply (C66_eurotop2018_q_diml Hm0 Tmm10 Rc beta gamma_beta gamma_b gamma_f gamma_v gamma_star B_berm db cot down up c1 c2 c3 c4 best ob FC SN OB NB).
  intros (sh & (F & _) & (_ & C)). apply (no_array_shape _ sh N) in C. subst sh. apply (array_none _ F). right. rewrite !Exists_cons in *. tauto.
Qed.

Theorem C66_eurotop2018_q_periods : forall Hm0 Tmm10 Rc beta gamma_beta gamma_b gamma_f gamma_v gamma_star B_berm db cot down up c1 c2 c3 c4 best g ob,
  filled cot -> missing down \/ missing up -> oblique_with beta gamma_beta gamma_f ob -> one_number B_berm (Fin 0) ->
  Forall (fun a : nums => ~ is_array a) [Hm0; Rc; ob; gamma_f; gamma_star] -> Exists is_array [Tmm10; cot; gamma_v] ->
  value (ArrOvertoppingEurotop2018.calculate_overtopping_discharge_q Hm0 Tmm10 Rc beta gamma_beta gamma_b gamma_f gamma_v gamma_star B_berm db cot down up c1 c2 c3 c4 best (float g)) = Err ValueError.
Proof.
  intros * FC SN OB NB N X. apply (C66_eurotop2018_q Hm0 Tmm10 Rc beta gamma_beta gamma_b gamma_f gamma_v gamma_star B_berm db cot down up c1 c2 c3 c4 best g ob FC SN OB NB).
  intros (sh & (F & _) & (_ & C)). apply (no_array_shape _ sh N) in C. subst sh. apply (array_none _ F). right. rewrite !Exists_cons in *. tauto.
Qed.

(** ... and no array of the crest factor alone. *)
Theorem C66_eurotop2018_q_diml_crest_factor : forall Hm0 Tmm10 Rc beta gamma_beta gamma_b gamma_f gamma_v gamma_star B_berm db cot down up c1 c2 c3 c4 best ob,
  filled cot -> missing down \/ missing up -> oblique_with beta gamma_beta gamma_f ob -> one_number B_berm (Fin 0) ->
  Forall (fun a : nums => ~ is_array a) [Hm0; Tmm10; Rc; ob; gamma_f; cot; gamma_v] -> is_array gamma_star ->
  value (ArrOvertoppingEurotop2018.calculate_dimensionless_overtopping_discharge_q Hm0 Tmm10 Rc beta gamma_beta gamma_b gamma_f gamma_v gamma_star B_berm db cot down up c1 c2 c3 c4 best) = Err ValueError.
Proof.
  intros * FC SN OB NB N X. apply (C66_eurotop2018_q_diml Hm0 Tmm10 Rc beta gamma_beta gamma_b gamma_f gamma_v gamma_star B_berm db cot down up c1 c2 c3 c4 best ob FC SN OB NB).
  intros (sh & (_ & C) & (F & _)). apply (no_array_shape _ sh N) in C. subst sh. apply (array_none _ F). rewrite !Exists_cons. tauto.
Qed.

Theorem C66_eurotop2018_q_crest_factor : forall Hm0 Tmm10 Rc beta gamma_beta gamma_b gamma_f gamma_v gamma_star B_berm db cot down up c1 c2 c3 c4 best g ob,
  filled cot -> missing down \/ missing up -> oblique_with beta gamma_beta gamma_f ob -> one_number B_berm (Fin 0) ->
  Forall (fun a : nums => ~ is_array a) [Hm0; Tmm10; Rc; ob; gamma_f; cot; gamma_v] -> is_array gamma_star ->
  value (ArrOvertoppingEurotop2018.calculate_overtopping_discharge_q Hm0 Tmm10 Rc beta gamma_beta gamma_b gamma_f gamma_v gamma_star B_berm db cot down up c1 c2 c3 c4 best (float g)) = Err ValueError.
Proof.
  intros * FC SN OB NB N X. apply (C66_eurotop2018_q Hm0 Tmm10 Rc beta gamma_beta gamma_b gamma_f gamma_v gamma_star B_berm db cot down up c1 c2 c3 c4 best g ob FC SN OB NB).
  intros (sh & (_ & C) & (F & _)). apply (no_array_shape _ sh N) in C. subst sh. apply (array_none _ F). rewrite !Exists_cons. tauto.
Qed.

Theorem C66_eurotop2018_Rc_diml_crest_factor : forall Hm0 Tmm10 q beta gamma_beta gamma_b gamma_f gamma_v gamma_star B_berm db cot down up c1 c2 c3 c4 best g ob,
  filled cot -> missing down \/ missing up -> oblique_with beta gamma_beta gamma_f ob -> one_number B_berm (Fin 0) ->
  Forall (fun a : nums => ~ is_array a) [Hm0; Tmm10; q; ob; gamma_f; cot; gamma_v] -> is_array gamma_star ->
  value (ArrOvertoppingEurotop2018.calculate_dimensionless_crest_freeboard Hm0 Tmm10 q beta gamma_beta gamma_b gamma_f gamma_v gamma_star B_berm db cot down up c1 c2 c3 c4 best (float g)) = Err ValueError.
Proof.
  intros * FC SN OB NB N X. apply (C66_eurotop2018_Rc_diml Hm0 Tmm10 q beta gamma_beta gamma_b gamma_f gamma_v gamma_star B_berm db cot down up c1 c2 c3 c4 best g ob FC SN OB NB).
  intros (sh & (_ & C) & (F & _)). apply (no_array_shape _ sh N) in C. subst sh. apply (array_none _ F). rewrite !Exists_cons. tauto.
Qed.

Theorem C66_eurotop2018_Rc_crest_factor : forall Hm0 Tmm10 q beta gamma_beta gamma_b gamma_f gamma_v gamma_star B_berm db cot down up c1 c2 c3 c4 best g ob,
  filled cot -> missing down \/ missing up -> oblique_with beta gamma_beta gamma_f ob -> one_number B_berm (Fin 0) ->
  Forall (fun a : nums => ~ is_array a) [Hm0; Tmm10; q; ob; gamma_f; cot; gamma_v] -> is_array gamma_star ->
  value (ArrOvertoppingEurotop2018.calculate_crest_freeboard_Rc Hm0 Tmm10 q beta gamma_beta gamma_b gamma_f gamma_v gamma_star B_berm db cot down up c1 c2 c3 c4 best (float g)) = Err ValueError.
Proof.
  intros * FC SN OB NB N X. apply (C66_eurotop2018_Rc Hm0 Tmm10 q beta gamma_beta gamma_b gamma_f gamma_v gamma_star B_berm db cot down up c1 c2 c3 c4 best g ob FC SN OB NB).
  intros (sh & (_ & C) & (F & _)). apply (no_array_shape _ sh N) in C. subst sh. apply (array_none _ F). rewrite !Exists_cons. tauto.
Qed.

(** Without an influence factor of oblique waves the roughness is one number: the coefficient
    depends on it. *)
Theorem C66_eurotop2018_roughness : forall Hm0 Tmm10 r beta gamma_beta gamma_b gamma_f gamma_v gamma_star B_berm db cot down up c1 c2 c3 c4 best g n,
  missing gamma_beta -> filled beta -> shape gamma_f = Some n -> n <> 1 ->
  value (ArrOvertoppingEurotop2018.calculate_dimensionless_overtopping_discharge_q Hm0 Tmm10 r beta gamma_beta gamma_b gamma_f gamma_v gamma_star B_berm db cot down up c1 c2 c3 c4 best) = Err ValueError
  /\ value (ArrOvertoppingEurotop2018.calculate_overtopping_discharge_q Hm0 Tmm10 r beta gamma_beta gamma_b gamma_f gamma_v gamma_star B_berm db cot down up c1 c2 c3 c4 best (float g)) = Err ValueError
  /\ value (ArrOvertoppingEurotop2018.calculate_dimensionless_crest_freeboard Hm0 Tmm10 r beta gamma_beta gamma_b gamma_f gamma_v gamma_star B_berm db cot down up c1 c2 c3 c4 best (float g)) = Err ValueError
  /\ value (ArrOvertoppingEurotop2018.calculate_crest_freeboard_Rc Hm0 Tmm10 r beta gamma_beta gamma_b gamma_f gamma_v gamma_star B_berm db cot down up c1 c2 c3 c4 best (float g)) = Err ValueError
  /\ value (ArrOvertoppingEurotop2018.calculate_dimensionless_overtopping_discharge_q_rubble_mound Hm0 Tmm10 r beta gamma_beta gamma_f B_berm db cot down up c2 c3 best) = Err ValueError
  /\ value (ArrOvertoppingEurotop2018.calculate_overtopping_discharge_q_rubble_mound Hm0 Tmm10 r beta gamma_beta gamma_f B_berm db cot down up c2 c3 best (float g)) = Err ValueError
  /\ value (ArrOvertoppingEurotop2018.calculate_dimensionless_crest_freeboard_rubble_mound Hm0 Tmm10 r beta gamma_beta gamma_f B_berm db cot down up c2 c3 best (float g)) = Err ValueError
  /\ value (ArrOvertoppingEurotop2018.calculate_crest_freeboard_Rc_rubble_mound Hm0 Tmm10 r beta gamma_beta gamma_f B_berm db cot down up c2 c3 best (float g)) = Err ValueError.
Proof.
  intros * N F E M. pose proof (beta_several beta gamma_beta gamma_f n N F E M) as K.
  unfold ArrOvertoppingEurotop2018.calculate_overtopping_discharge_q, ArrOvertoppingEurotop2018.calculate_crest_freeboard_Rc,
    ArrOvertoppingEurotop2018.calculate_overtopping_discharge_q_rubble_mound, ArrOvertoppingEurotop2018.calculate_crest_freeboard_Rc_rubble_mound,
    ArrOvertoppingEurotop2018.calculate_dimensionless_overtopping_discharge_q, ArrOvertoppingEurotop2018.calculate_dimensionless_crest_freeboard,
    ArrOvertoppingEurotop2018.calculate_dimensionless_overtopping_discharge_q_rubble_mound, ArrOvertoppingEurotop2018.calculate_dimensionless_crest_freeboard_rubble_mound;
  destruct (OvertoppingEurotop2018.check_best_fit c1 c2 c3 c4 best) as [[[e1 e2] e3] e4];
  destruct (OvertoppingEurotop2018.check_best_fit NaN c2 c3 NaN best) as [[[h1 h2] h3] h4];
  repeat split; first [apply stops_first; exact K|apply stops_first, stops_first; exact K].
Qed.

(** A composite slope does not go with arrays. *)
Theorem C66_eurotop2018_composite : forall Hm0 Tmm10 r beta gamma_beta gamma_b gamma_f gamma_v gamma_star B_berm db cot down up c1 c2 c3 c4 best g,
  filled down -> filled up -> all_finite Hm0 -> Exists is_array [Hm0; db; B_berm; down; up] ->
  value (ArrOvertoppingEurotop2018.calculate_dimensionless_overtopping_discharge_q Hm0 Tmm10 r beta gamma_beta gamma_b gamma_f gamma_v gamma_star B_berm db cot down up c1 c2 c3 c4 best) = Err ValueError
  /\ value (ArrOvertoppingEurotop2018.calculate_overtopping_discharge_q Hm0 Tmm10 r beta gamma_beta gamma_b gamma_f gamma_v gamma_star B_berm db cot down up c1 c2 c3 c4 best (float g)) = Err ValueError
  /\ value (ArrOvertoppingEurotop2018.calculate_dimensionless_crest_freeboard Hm0 Tmm10 r beta gamma_beta gamma_b gamma_f gamma_v gamma_star B_berm db cot down up c1 c2 c3 c4 best (float g)) = Err ValueError
  /\ value (ArrOvertoppingEurotop2018.calculate_crest_freeboard_Rc Hm0 Tmm10 r beta gamma_beta gamma_b gamma_f gamma_v gamma_star B_berm db cot down up c1 c2 c3 c4 best (float g)) = Err ValueError
  /\ value (ArrOvertoppingEurotop2018.calculate_dimensionless_overtopping_discharge_q_rubble_mound Hm0 Tmm10 r beta gamma_beta gamma_f B_berm db cot down up c2 c3 best) = Err ValueError
  /\ value (ArrOvertoppingEurotop2018.calculate_overtopping_discharge_q_rubble_mound Hm0 Tmm10 r beta gamma_beta gamma_f B_berm db cot down up c2 c3 best (float g)) = Err ValueError
  /\ value (ArrOvertoppingEurotop2018.calculate_dimensionless_crest_freeboard_rubble_mound Hm0 Tmm10 r beta gamma_beta gamma_f B_berm db cot down up c2 c3 best (float g)) = Err ValueError
  /\ value (ArrOvertoppingEurotop2018.calculate_crest_freeboard_Rc_rubble_mound Hm0 Tmm10 r beta gamma_beta gamma_f B_berm db cot down up c2 c3 best (float g)) = Err ValueError.
Proof.
  intros * FD FU FH X. pose proof (tame_beta2018 beta gamma_beta gamma_f) as T.
  pose proof (fun gb b => slope_composite Hm0 Tmm10 gamma_f B_berm db cot down up gb b FD FU FH X) as K.
  unfold ArrOvertoppingEurotop2018.calculate_overtopping_discharge_q, ArrOvertoppingEurotop2018.calculate_crest_freeboard_Rc,
    ArrOvertoppingEurotop2018.calculate_overtopping_discharge_q_rubble_mound, ArrOvertoppingEurotop2018.calculate_crest_freeboard_Rc_rubble_mound,
    ArrOvertoppingEurotop2018.calculate_dimensionless_overtopping_discharge_q, ArrOvertoppingEurotop2018.calculate_dimensionless_crest_freeboard,
    ArrOvertoppingEurotop2018.calculate_dimensionless_overtopping_discharge_q_rubble_mound, ArrOvertoppingEurotop2018.calculate_dimensionless_crest_freeboard_rubble_mound;
  destruct (OvertoppingEurotop2018.check_best_fit c1 c2 c3 c4 best) as [[[e1 e2] e3] e4];
  destruct (OvertoppingEurotop2018.check_best_fit NaN c2 c3 NaN best) as [[[h1 h2] h3] h4];
  repeat split;
    first [apply stops_then; [exact T|]; intros gb _; apply stops_first, K
          |apply stops_first; apply stops_then; [exact T|]; intros gb _; apply stops_first, K].
Qed.

(** Nor does a berm. *)
Theorem C66_eurotop2018_berm : forall Hm0 Tmm10 r beta gamma_beta gamma_b gamma_f gamma_v gamma_star B_berm db cot down up c1 c2 c3 c4 best g ob,
  oblique_with beta gamma_beta gamma_f ob -> filled cot -> missing down \/ missing up ->
  all_positive B_berm -> all_positive Hm0 -> all_positive cot -> Exists is_array [Hm0; Tmm10; ob; gamma_f; cot; B_berm; db] ->
  value (ArrOvertoppingEurotop2018.calculate_dimensionless_overtopping_discharge_q Hm0 Tmm10 r beta gamma_beta gamma_b gamma_f gamma_v gamma_star B_berm db cot down up c1 c2 c3 c4 best) = Err ValueError
  /\ value (ArrOvertoppingEurotop2018.calculate_overtopping_discharge_q Hm0 Tmm10 r beta gamma_beta gamma_b gamma_f gamma_v gamma_star B_berm db cot down up c1 c2 c3 c4 best (float g)) = Err ValueError
  /\ value (ArrOvertoppingEurotop2018.calculate_dimensionless_crest_freeboard Hm0 Tmm10 r beta gamma_beta gamma_b gamma_f gamma_v gamma_star B_berm db cot down up c1 c2 c3 c4 best (float g)) = Err ValueError
  /\ value (ArrOvertoppingEurotop2018.calculate_crest_freeboard_Rc Hm0 Tmm10 r beta gamma_beta gamma_b gamma_f gamma_v gamma_star B_berm db cot down up c1 c2 c3 c4 best (float g)) = Err ValueError.
Proof.
  intros * OB FC SN PB PH PC X. pose proof (tame_beta2018 beta gamma_beta gamma_f) as T.
  pose proof (fun gb E => berm_stops Hm0 Tmm10 beta gamma_beta gamma_f B_berm db cot down up ob gb OB E FC SN PB PH PC X) as K.
  pose proof (fun gb b => slope_single Hm0 Tmm10 cot down up B_berm db gamma_f gb b FC SN) as Z.
  assert (Y : forall A b (k : nums -> nums -> ArrOvertoppingEurotop2018.factors -> M A),
    stops (gb <- ArrOvertoppingEurotop2018.factor_beta beta gamma_beta gamma_f ;;
           s <- ArrOvertoppingEurotop2018.slope Hm0 Tmm10 cot down up B_berm db gamma_f gb b ;;
           fac <- ArrOvertoppingEurotop2018.berm_and_roughness Hm0 Tmm10 s down up B_berm db gamma_f gb ;; k gb s fac)).
  { intros A b k. apply stops_then; [exact T|]. intros gb E. unfold stops. rewrite value_bind, Z. apply stops_first, K, E. }
  unfold ArrOvertoppingEurotop2018.calculate_overtopping_discharge_q, ArrOvertoppingEurotop2018.calculate_crest_freeboard_Rc,
    ArrOvertoppingEurotop2018.calculate_overtopping_discharge_q_rubble_mound, ArrOvertoppingEurotop2018.calculate_crest_freeboard_Rc_rubble_mound,
    ArrOvertoppingEurotop2018.calculate_dimensionless_overtopping_discharge_q, ArrOvertoppingEurotop2018.calculate_dimensionless_crest_freeboard,
    ArrOvertoppingEurotop2018.calculate_dimensionless_overtopping_discharge_q_rubble_mound, ArrOvertoppingEurotop2018.calculate_dimensionless_crest_freeboard_rubble_mound;
  destruct (OvertoppingEurotop2018.check_best_fit c1 c2 c3 c4 best) as [[[e1 e2] e3] e4];
  destruct (OvertoppingEurotop2018.check_best_fit NaN c2 c3 NaN best) as [[[h1 h2] h3] h4];
  repeat split;
    first [apply (Y _ _ (fun gb s fac => _))|apply stops_first; apply (Y _ _ (fun gb s fac => _))].
Qed.

(** ** Examples *)
Open Scope arr_scope.
Ltac fill := split; [discriminate|repeat (constructor; [reflexivity|]); constructor].
Ltac missed := unfold missing; repeat (constructor; [reflexivity|]); constructor.
Ltac stretched := repeat (constructor; [solve [unfold stretches; cbn; auto 6]|]); constructor.
Ltac commons := split; [stretched|right; repeat first [apply Exists_cons_hd; reflexivity|apply Exists_cons_tl]].

(** Two wave heights, with the angle of the waves: two discharges *)
Example C66_eurotop2007_example :
  exists r, value (ArrOvertoppingEurotop2007.calculate_overtopping_discharge_q_rubble_mound (Ar [#1; #2]%num) #5 #2 #30 anan #0.5 #1.5
      OvertoppingEurotop2007.c2_default OvertoppingEurotop2007.c3_default false (float #9.81%num)) = Ok r
  /\ shape r = Some 2
  /\ value (OvertoppingEurotop2007.calculate_overtopping_discharge_q_rubble_mound #2 #5 #2 #30 NaN #0.5 #1.5
      OvertoppingEurotop2007.c2_default OvertoppingEurotop2007.c3_default false #9.81)%num = Ok (place 1 r).
Proof.
  destruct (C66_eurotop2007_q (Ar [#1; #2]%num) (lit 5) (lit 2) (lit 30) anan (lit 0.5) (lit 1.5)
    OvertoppingEurotop2007.c2_default OvertoppingEurotop2007.c3_default false #9.81%num (lit 30)) as (H & _).
  { right. split; [missed|]. split; [fill|reflexivity]. }
  destruct (H (Some 2)) as (r & E & S & V); [commons|]. exists r. split; [exact E|]. split; [exact S|].
  apply (V 1). cbn. lia.
Qed.

Definition coefs {A} (f : num -> num -> num -> num -> A) : A :=
  f OvertoppingEurotop2018.c1_default OvertoppingEurotop2018.c2_default OvertoppingEurotop2018.c3_default OvertoppingEurotop2018.c4_default.
Lemma example_oblique (f : nums) x : one_number f x -> oblique_with (lit 30) anan f (lit 30).
Proof. intros O. right. split; [missed|]. split; [fill|]. split; [reflexivity|]. exists x. exact O. Qed.

(** Two wave heights: two discharges.  Two wave periods with one wave height: an error, although the
    arguments broadcast together. *)
Example C66_eurotop2018_example :
  (exists r m, value (coefs (ArrOvertoppingEurotop2018.calculate_overtopping_discharge_q (Ar [#1; #2]%num) #5 #2 #30 anan anan #0.5 #1 #1 #0 #0 #1.5 anan anan)
      false (float #9.81%num)) = Ok (r, m) /\ shape r = Some 2 /\ shape m = Some 2
   /\ exists b, at_ m 1 = Some b
      /\ value (coefs (OvertoppingEurotop2018.calculate_overtopping_discharge_q #2 #5 #2 #30 NaN NaN #0.5 #1 #1 #0 #0 #1.5 NaN NaN) false #9.81)%num = Ok (place 1 r, b))
  /\ value (coefs (ArrOvertoppingEurotop2018.calculate_overtopping_discharge_q #1 (Ar [#5; #6]%num) #2 #30 anan anan #0.5 #1 #1 #0 #0 #1.5 anan anan)
      false (float #9.81%num)) = Err ValueError
  /\ compatible [lit 1; Ar [#5; #6]%num; lit 2; lit 30; lit 0.5; lit 1.5; lit 1; lit 1].
Proof.
  unfold coefs. split; [|split; [|exists (Some 2); stretched]].
  - destruct (C66_eurotop2018_q (Ar [#1; #2]%num) (lit 5) (lit 2) (lit 30) anan anan (lit 0.5) (lit 1) (lit 1) (lit 0) (lit 0) (lit 1.5) anan anan
      OvertoppingEurotop2018.c1_default OvertoppingEurotop2018.c2_default OvertoppingEurotop2018.c3_default OvertoppingEurotop2018.c4_default false #9.81%num (lit 30))
      as (H & _); [fill|left; missed|apply example_oblique with #0.5%num; reflexivity|reflexivity|].
    destruct (H (Some 2)) as (r & m & E & Sr & Sm & P); [commons|commons|].
    exists r, m. split; [exact E|]. split; [exact Sr|]. split; [exact Sm|]. destruct (P 1) as (b & Eb & V); [cbn; lia|].
    exists b. split; [exact Eb|exact V].
  - apply C66_eurotop2018_q_periods with (lit 30);
      [fill|left; missed|apply example_oblique with #0.5%num; reflexivity|reflexivity| |apply Exists_cons_hd; discriminate].
    repeat (constructor; [intros K; apply K; reflexivity|]). constructor.
Qed.

(** The freeboard takes the two wave periods; so does the discharge over rubble mounds. *)
Example C66_eurotop2018_periods_example :
  (exists r m, value (coefs (ArrOvertoppingEurotop2018.calculate_crest_freeboard_Rc #1 (Ar [#5; #6]%num) #0.001 #30 anan anan #0.5 #1 #1 #0 #0 #1.5 anan anan)
      false (float #9.81%num)) = Ok (r, m) /\ shape r = Some 2)
  /\ (exists r, value (ArrOvertoppingEurotop2018.calculate_overtopping_discharge_q_rubble_mound #1 (Ar [#5; #6]%num) #2 #30 anan #0.5 #0 #0 #1.5 anan anan
      OvertoppingEurotop2018.c2_default OvertoppingEurotop2018.c3_default false (float #9.81%num)) = Ok r /\ shape r = Some 2).
Proof.
  unfold coefs. split.
  - destruct (C66_eurotop2018_Rc (lit 1) (Ar [#5; #6]%num) (lit 0.001) (lit 30) anan anan (lit 0.5) (lit 1) (lit 1) (lit 0) (lit 0) (lit 1.5) anan anan
      OvertoppingEurotop2018.c1_default OvertoppingEurotop2018.c2_default OvertoppingEurotop2018.c3_default OvertoppingEurotop2018.c4_default false #9.81%num (lit 30))
      as (H & _); [fill|left; missed|apply example_oblique with #0.5%num; reflexivity|reflexivity|].
    destruct (H (Some 2)) as (r & m & E & Sr & _); [commons|commons|]. exists r, m. split; [exact E|exact Sr].
  - destruct (C66_eurotop2018_rubble_q (lit 1) (Ar [#5; #6]%num) (lit 2) (lit 30) anan (lit 0.5) (lit 0) (lit 0) (lit 1.5) anan anan
      OvertoppingEurotop2018.c2_default OvertoppingEurotop2018.c3_default false #9.81%num (lit 30))
      as (H & _); [fill|left; missed|apply example_oblique with #0.5%num; reflexivity|].
    destruct (H (Some 2)) as (r & E & Sr & _); [commons|]. exists r. split; [exact E|exact Sr].
Qed.

(** Errors: two roughnesses with an angle, two wave heights with a composite slope or with a berm *)
Example C66_eurotop2018_stops_example :
  value (coefs (ArrOvertoppingEurotop2018.calculate_overtopping_discharge_q #1 #5 #2 #30 anan anan (Ar [#0.5; #0.7]%num) #1 #1 #0 #0 #1.5 anan anan)
      false (float #9.81%num)) = Err ValueError
  /\ value (coefs (ArrOvertoppingEurotop2018.calculate_crest_freeboard_Rc (Ar [#1; #2]%num) #5 #0.001 #30 anan anan #0.5 #1 #1 #4 #0 anan #3 #4)
      false (float #9.81%num)) = Err ValueError
  /\ value (coefs (ArrOvertoppingEurotop2018.calculate_overtopping_discharge_q (Ar [#1; #2]%num) #5 #2 #30 anan anan #0.5 #1 #1 #4 #0 #3 anan anan)
      false (float #9.81%num)) = Err ValueError.
Proof.
  unfold coefs. split; [|split].
  - destruct (C66_eurotop2018_roughness (lit 1) (lit 5) (lit 2) (lit 30) anan anan (Ar [#0.5; #0.7]%num) (lit 1) (lit 1) (lit 0) (lit 0) (lit 1.5) anan anan
      OvertoppingEurotop2018.c1_default OvertoppingEurotop2018.c2_default OvertoppingEurotop2018.c3_default OvertoppingEurotop2018.c4_default false #9.81%num 2)
      as (_ & H & _); [missed|fill|reflexivity|discriminate|exact H].
  - destruct (C66_eurotop2018_composite (Ar [#1; #2]%num) (lit 5) (lit 0.001) (lit 30) anan anan (lit 0.5) (lit 1) (lit 1) (lit 4) (lit 0) anan (lit 3) (lit 4)
      OvertoppingEurotop2018.c1_default OvertoppingEurotop2018.c2_default OvertoppingEurotop2018.c3_default OvertoppingEurotop2018.c4_default false #9.81%num)
      as (_ & _ & _ & H & _); [fill|fill|repeat constructor; eexists; reflexivity|apply Exists_cons_hd; discriminate|exact H].
  - destruct (C66_eurotop2018_berm (Ar [#1; #2]%num) (lit 5) (lit 2) (lit 30) anan anan (lit 0.5) (lit 1) (lit 1) (lit 4) (lit 0) (lit 3) anan anan
      OvertoppingEurotop2018.c1_default OvertoppingEurotop2018.c2_default OvertoppingEurotop2018.c3_default OvertoppingEurotop2018.c4_default false #9.81%num (lit 30))
      as (_ & H & _); [apply example_oblique with #0.5%num; reflexivity|fill|left; missed| | | |apply Exists_cons_hd; discriminate|exact H];
      unfold all_positive; repeat (constructor; [eexists; split; [reflexivity|lra]|]); constructor.
Qed.
