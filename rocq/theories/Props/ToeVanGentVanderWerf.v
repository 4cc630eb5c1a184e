(** Property C54: Van Gent & Van der Werf (2014). *)
From Coq Require Import Reals Lra List Bool String.
From Verif.Lib Require Import Num Monad RTac NTac.
From Verif.Spec Require Import Waves Toe.
From Verif.Model Require Import CoreUtility CorePhysics VanGentVanderWerf2014.
From Verif.Proofs Require Import Core CheckTac.
Import ListNotations.
Open Scope R_scope.

Lemma sinh_pos x : 0 < x -> 0 < sinh x.
Proof. intros. unfold sinh. assert (exp (- x) < exp x) by (apply exp_increasing; lra). lra. Qed.

Lemma checks a b c d : value (check_validity a b c d) = Ok tt.
Proof. unfold check_validity. mchecks. reflexivity. Qed.

Lemma wavenumber_pos g T ht : 0 < g -> 0 < T -> 0 < ht -> 0 < 4 * PI ^ 2 / (g * T ^ 2) * ht.
Proof. intros. rpos. Qed.

Lemma velocity_pos g Hs T ht : 0 < g -> 0 < Hs -> 0 < T -> 0 < ht -> 0 < vgvdw_velocity g Hs T ht.
Proof.
  intros. unfold vgvdw_velocity.
  pose proof (sinh_pos _ (wavenumber_pos g T ht ltac:(assumption) ltac:(assumption) ltac:(assumption))).
  rpos.
Qed.

Lemma velocity_fin g Hs T ht : 0 < g -> 0 < Hs -> 0 < T -> 0 < ht ->
  calculate_velocity_u_delta (Fin Hs) (Fin T) (Fin ht) (Fin g) = Fin (vgvdw_velocity g Hs T ht).
Proof.
  intros. unfold calculate_velocity_u_delta, vgvdw_velocity.
  pose proof (sinh_pos _ (wavenumber_pos g T ht ltac:(assumption) ltac:(assumption) ltac:(assumption))) as P.
  assert (0 < PI) by rpos. assert (0 < g / (2 * PI) * T ^ 2) by rpos.
  nfin.
  replace (2 * PI / (g / (2 * PI) * T ^ 2) * ht) with (4 * PI ^ 2 / (g * T ^ 2) * ht)
    by (field; repeat split; lra).
  nfin. f_equal. field. split; lra.
Qed.

Section Formulas.
Variables (Hs T ht Bt tt rs rw g : R) (ca : num).
Hypotheses (HHs : 0 < Hs) (HT : 0 < T) (Hht : 0 < ht) (HBt : 0 < Bt) (Htt : 0 < tt)
  (Hrw : 0 < rw) (Hrs : rw < rs) (Hg : 0 < g).

Lemma damage_fin D : 0 < D ->
  value (default_damage_Nod (Fin Hs) (Fin T) (Fin ht) (Fin Bt) (Fin tt) (Fin D) (Fin rs) (Fin rw) ca (Fin g))
  = Ok (Fin (vgvdw_Nod (rs / rw - 1) g Hs T ht Bt tt D)).
Proof.
  intros. unfold default_damage_Nod, calculate_damage_Nod. mval. rewrite checks. mval.
  rewrite velocity_fin, Delta_fin by (assumption || lra).
  pose proof (buoyant_pos rs rw Hrw Hrs) as HDe.
  pose proof (velocity_pos g Hs T ht Hg HHs HT Hht).
  assert (0 < buoyant rs rw * D) by rpos.
  assert (0 < tt / Hs) by rpos. assert (0 < Bt / Hs) by rpos.
  assert (0 < sqrt (g * Hs)) by rpos.
  nfin. do 2 f_equal. unfold vgvdw_Nod. fold (buoyant rs rw).
  rewrite !Rpower_1 by rpos. ring.
Qed.

Lemma diameter_fin N : 0 < N ->
  exists D, 0 < D
   /\ value (calculate_nominal_diameter_Dn50 (Fin Hs) (Fin T) (Fin ht) (Fin Bt) (Fin tt) (Fin N)
               (Fin rs) (Fin rw) ca (Fin g)) = Ok (Fin D)
   /\ vgvdw_Nod (rs / rw - 1) g Hs T ht Bt tt D = 1000 / 1024 * N.
Proof.
  intros. unfold calculate_nominal_diameter_Dn50. mval. rewrite checks. mval.
  rewrite velocity_fin, Delta_fin by (assumption || lra).
  pose proof (buoyant_pos rs rw Hrw Hrs) as HDe.
  pose proof (velocity_pos g Hs T ht Hg HHs HT Hht).
  assert (0 < tt / Hs) by rpos. assert (0 < Bt / Hs) by rpos.
  assert (0 < sqrt (g * Hs)) by rpos.
  assert (0 < Rpower N (1 / 3)) by rpos.
  assert (0 < buoyant rs rw * Rpower N (1 / 3)) by rpos.
  eexists; split; [|split; [nfin; reflexivity|]]; [rpos|].
  unfold vgvdw_Nod. fold (buoyant rs rw).
  set (u := vgvdw_velocity g Hs T ht) in *. set (De := buoyant rs rw) in *.
  set (q := u / sqrt (g * Hs)). assert (0 < q) by (unfold q; rpos). fold q.
  assert (C : forall x, 0 < x -> x = Rpower x (1 / 3) ^ 3).
  { intros. rewrite <- Rpower_3 by rpos. rewrite Rpower_cancel by lra. reflexivity. }
  assert (B3 : Rpower (Bt / Hs) 0.3 = Rpower (Bt / Hs) 0.1 ^ 3).
  { rewrite <- Rpower_3 by rpos. rewrite (Rpower_pow_eq _ _ _ 0.3) by lra. reflexivity. }
  rewrite B3. rewrite (C (tt / Hs)) at 1 by assumption. rewrite (C N) at 2 by assumption.
  rewrite (C q) at 2 by assumption.
  set (x := Rpower q (1 / 3)). set (y := Rpower N (1 / 3)) in *. set (z := Rpower (tt / Hs) (1 / 3)).
  set (w := Rpower (Bt / Hs) 0.1).
  assert (0 < x) by (unfold x; rpos). assert (0 < z) by (unfold z; rpos). assert (0 < w) by (unfold w; rpos).
  rfld.
Qed.
End Formulas.

Theorem C54_damage_is_the_published_formula :
  forall Hs T ht Bt tt D rs rw ca g,
    0 < Hs -> 0 < T -> 0 < ht -> 0 < Bt -> 0 < tt -> 0 < D -> 0 < rw -> rw < rs -> 0 < g ->
    value (default_damage_Nod (Fin Hs) (Fin T) (Fin ht) (Fin Bt) (Fin tt) (Fin D) (Fin rs) (Fin rw) ca (Fin g))
    = Ok (Fin (vgvdw_Nod (rs / rw - 1) g Hs T ht Bt tt D)).
Proof. intros. apply damage_fin; assumption. Qed.

(** Going from damage to diameter and back loses 24/1024 of the damage. *)
Theorem C54_round_trip_factor :
  forall Hs T ht Bt tt N rs rw ca g,
    0 < Hs -> 0 < T -> 0 < ht -> 0 < Bt -> 0 < tt -> 0 < N -> 0 < rw -> rw < rs -> 0 < g ->
    exists D, 0 < D
      /\ value (calculate_nominal_diameter_Dn50 (Fin Hs) (Fin T) (Fin ht) (Fin Bt) (Fin tt) (Fin N)
                  (Fin rs) (Fin rw) ca (Fin g)) = Ok (Fin D)
      /\ value (default_damage_Nod (Fin Hs) (Fin T) (Fin ht) (Fin Bt) (Fin tt) (Fin D) (Fin rs) (Fin rw) ca (Fin g))
         = Ok (Fin (1000 / 1024 * N)).
Proof.
  intros * ? ? ? ? ? HN ? ? ?.
  destruct (diameter_fin Hs T ht Bt tt rs rw g ca) with (N := N) as (D & HD & V & E); try assumption.
  exists D. repeat split; try assumption. rewrite damage_fin by assumption. rewrite E. reflexivity.
Qed.

(** The two functions are therefore never inverse to each other. *)
Theorem C54_exact_inverse_refuted :
  exists Hs T ht Bt tt N rs rw g D N',
    N' <> N
    /\ value (calculate_nominal_diameter_Dn50 (Fin Hs) (Fin T) (Fin ht) (Fin Bt) (Fin tt) (Fin N)
                  (Fin rs) (Fin rw) NaN (Fin g)) = Ok (Fin D)
    /\ value (default_damage_Nod (Fin Hs) (Fin T) (Fin ht) (Fin Bt) (Fin tt) (Fin D) (Fin rs) (Fin rw) NaN (Fin g))
         = Ok (Fin N').
Proof.
  destruct (C54_round_trip_factor 3 9 5 4 2 1 2650 1025 NaN 9.81) as (D & ? & V1 & V2); try lra.
  exists 3, 9, 5, 4, 2, 1, 2650, 1025, 9.81, D, (1000 / 1024 * 1).
  repeat split; [lra|exact V1|exact V2].
Qed.

(** Heavier stones are damaged less, with the third power. *)
Theorem C54_damage_scales_with_cube :
  forall Hs T ht Bt tt D l rs rw ca g,
    0 < Hs -> 0 < T -> 0 < ht -> 0 < Bt -> 0 < tt -> 0 < D -> 0 < l -> 0 < rw -> rw < rs -> 0 < g ->
    exists N, value (default_damage_Nod (Fin Hs) (Fin T) (Fin ht) (Fin Bt) (Fin tt) (Fin D)
                       (Fin rs) (Fin rw) ca (Fin g)) = Ok (Fin N)
      /\ 0 < N
      /\ value (default_damage_Nod (Fin Hs) (Fin T) (Fin ht) (Fin Bt) (Fin tt) (Fin (l * D))
                       (Fin rs) (Fin rw) ca (Fin g)) = Ok (Fin (N / l ^ 3)).
Proof.
  intros. assert (0 < l * D) by rpos.
  rewrite !damage_fin by assumption. eexists; split; [reflexivity|].
  pose proof (buoyant_pos rs rw ltac:(assumption) ltac:(assumption)) as HDe.
  pose proof (velocity_pos g Hs T ht ltac:(assumption) ltac:(assumption) ltac:(assumption) ltac:(assumption)).
  unfold vgvdw_Nod. fold (buoyant rs rw).
  assert (0 < sqrt (g * Hs)) by rpos.
  split.
  - assert (0 < buoyant rs rw * D) by rpos. rpos.
  - do 2 f_equal. rfld.
Qed.

Example C54_example :
  exists D, value (calculate_nominal_diameter_Dn50 #3 #9 #5 #4 #2 #0.5 #2650 #1025 #2 #9.81)%num = Ok (Fin D)
    /\ value (default_damage_Nod #3 #9 #5 #4 #2 (Fin D) #2650 #1025 #2 #9.81)%num = Ok (Fin (1000 / 1024 * 0.5)).
Proof.
  destruct (C54_round_trip_factor 3 9 5 4 2 0.5 2650 1025 (Fin 2) 9.81) as (D & ? & V1 & V2); try lra.
  exists D. split; [exact V1|exact V2].
Qed.
