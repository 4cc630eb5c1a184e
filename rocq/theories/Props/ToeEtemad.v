(** Property C53: Etemad-Shahidi et al. (2021). *)
From Coq Require Import Reals Lra Lia List Bool String.
From Verif.Lib Require Import Num Monad RTac NTac Contraction.
From Verif.Spec Require Import Waves Toe.
From Verif.Model Require Import CoreUtility CorePhysics EtemadShahidi2021.
From Verif.Proofs Require Import Core CheckTac.
Import ListNotations.
Open Scope R_scope.

Lemma checks Hs ht : value (check_validity_Hs_ht Hs ht) = Ok tt.
Proof.
  unfold check_validity_Hs_ht, check_validity.
  replace (provided Hs && provided NaN)%bool with false by (destruct Hs; reflexivity).
  cbn [when]. mchecks. reflexivity.
Qed.

Lemma c6_val : c6_d = Fin (- (1 / 10)).
Proof. unfold c6_d. nfin. f_equal. field. Qed.
Lemma c3_val : c3_d = Fin (7 / 4). Proof. unfold c3_d. nfin. reflexivity. Qed.
Lemma c4_val : c4_d = Fin (1 / 6). Proof. unfold c4_d. nfin. reflexivity. Qed.
Lemma c5_val : c5_d = Fin (2 / 5). Proof. unfold c5_d. nfin. reflexivity. Qed.

Definition damage_d Hs T h ht Bt m D rs rw g :=
  calculate_damage_Nod Hs T h ht Bt m D rs rw g c1_d c2_d c3_d c4_d c5_d c6_d c7_d.
Definition diameter_d Hs T h ht Bt Nod m rs rw g :=
  calculate_nominal_diameter_Dn50 Hs T h ht Bt Nod m rs rw g c1_d c2_d c3_d c4_d c5_d c6_d c7_d.
Definition wave_height_d fuel T h ht Bt Nod m D rs rw g s0 max_iter :=
  calculate_significant_wave_height_Hs fuel T h ht Bt Nod m D rs rw g
    c1_d c2_d c3_d c4_d c5_d c6_d c7_d s0 max_iter.

(** The factor multiplying Nod^(2/5). *)
Lemma Ns_split s Hs h ht Bt m Nod :
  etemad2021_Ns s Hs h ht Bt m Nod
  = 1.2 + (11.2 * Rpower (ht / h) (7 / 4) * Rpower s (1 / 6) * Rpower (Bt / Hs) (- (1 / 10)) * (1 - 3.7 * m))
          * Rpower Nod (2 / 5).
Proof. unfold etemad2021_Ns. ring. Qed.

Theorem C53_damage_and_diameter_agree_with_relation :
  forall Hs T h ht Bt m Dn50 Nod rs rw g,
    0 < Hs -> 0 < T -> 0 < h -> 0 < ht -> 0 < Bt -> m < 1 / 3.7 -> 0 < Dn50 -> 0 < Nod ->
    0 < rw -> rw < rs -> 0 < g ->
    etemad2021 (rs / rw - 1) (2 * PI * Hs / (g * T ^ 2)) Hs h ht Bt m Dn50 Nod ->
    value (damage_d (Fin Hs) (Fin T) (Fin h) (Fin ht) (Fin Bt) (Fin m) (Fin Dn50) (Fin rs) (Fin rw) (Fin g))
      = Ok (Fin Nod)
    /\ value (diameter_d (Fin Hs) (Fin T) (Fin h) (Fin ht) (Fin Bt) (Fin Nod) (Fin m) (Fin rs) (Fin rw) (Fin g))
      = Ok (Fin Dn50).
Proof.
  intros * ? ? ? ? ? Hm ? ? ? ? ? E.
  pose proof (buoyant_pos rs rw) as HDe. assert (0 < buoyant rs rw) by auto.
  fold (buoyant rs rw) in E. fold (steepness g Hs T) in E. unfold etemad2021 in E.
  pose proof (steepness_pos g Hs T ltac:(assumption) ltac:(assumption) ltac:(assumption)) as Hst.
  assert (Hm' : 0 < 1 - 3.7 * m).
  { apply (Rmult_lt_compat_l 3.7) in Hm; [|lra]. replace (3.7 * (1 / 3.7)) with 1 in Hm by lra. lra. }
  assert (0 < ht / h) by rpos. assert (0 < Bt / Hs) by rpos.
  assert (0 < buoyant rs rw * Dn50) by rpos.
  assert (P1 : 0 < Rpower (ht / h) (7 / 4)) by rpos.
  assert (P2 : 0 < Rpower (steepness g Hs T) (1 / 6)) by rpos.
  assert (P3 : 0 < Rpower (Bt / Hs) (- (1 / 10))) by rpos.
  assert (P4 : 0 < Rpower Nod (2 / 5)) by rpos.
  assert (PK : 0 < etemad2021_Ns (steepness g Hs T) Hs h ht Bt m Nod).
  { rewrite Ns_split. assert (0 < 11.2 * Rpower (ht / h) (7 / 4) * Rpower (steepness g Hs T) (1 / 6)
      * Rpower (Bt / Hs) (- (1 / 10)) * (1 - 3.7 * m)) by rpos. nra. }
  unfold damage_d, diameter_d, calculate_damage_Nod, calculate_nominal_diameter_Dn50.
  rewrite c3_val, c4_val, c5_val, c6_val. unfold c1_d, c2_d, c7_d.
  rewrite Ns_fin, Delta_fin, steepness_fin by (assumption || lra).
  split; mval; rewrite checks; mval.
  - rewrite E, Ns_split. nfin.
    set (a := Rpower (ht / h) (7 / 4)) in *. set (b := Rpower (steepness g Hs T) (1 / 6)) in *.
    set (c := Rpower (Bt / Hs) (- (1 / 10))) in *. set (d := Rpower Nod (2 / 5)) in *.
    set (n := 1 - 3.7 * m) in *.
    assert (EB : (1.2 + 11.2 * a * b * c * n * d - 1.2) * (1 / 11.2)
        * Rpower (ht / h) (- (7 / 4)) * Rpower (steepness g Hs T) (- (1 / 6))
        * Rpower (Bt / Hs) (- - (1 / 10)) * (1 / n) = d).
    { rewrite !Rpower_Ropp. fold a b.
      assert (Ec : Rpower (Bt / Hs) (1 / 10) = / c).
      { unfold c. rewrite Rpower_Ropp. rewrite Rinv_inv. reflexivity. }
      rewrite Ec. rfld. }
    rewrite EB. nfin. do 2 f_equal. unfold d. apply Rpower_cancel; [assumption|]. rfld.
  - nfin. fold (etemad2021_Ns (steepness g Hs T) Hs h ht Bt m Nod).
    do 2 f_equal. rewrite Rpower_Ropp, Rpower_1 by assumption.
    rewrite <- E. rfld.
Qed.

Theorem C53_diameter_total :
  forall Hs T h ht Bt m Nod rs rw g,
    0 < Hs -> 0 < T -> 0 < h -> 0 < ht -> 0 < Bt -> m < 1 / 3.7 -> 0 < Nod ->
    0 < rw -> rw < rs -> 0 < g ->
    exists Dn50, 0 < Dn50
      /\ value (diameter_d (Fin Hs) (Fin T) (Fin h) (Fin ht) (Fin Bt) (Fin Nod) (Fin m) (Fin rs) (Fin rw) (Fin g))
         = Ok (Fin Dn50)
      /\ value (damage_d (Fin Hs) (Fin T) (Fin h) (Fin ht) (Fin Bt) (Fin m) (Fin Dn50) (Fin rs) (Fin rw) (Fin g))
         = Ok (Fin Nod).
Proof.
  intros. pose proof (buoyant_pos rs rw) as HDe. assert (0 < buoyant rs rw) by auto.
  assert (Hm' : 0 < 1 - 3.7 * m).
  { apply (Rmult_lt_compat_l 3.7) in H4; [|lra]. replace (3.7 * (1 / 3.7)) with 1 in H4 by lra. lra. }
  set (N := etemad2021_Ns (2 * PI * Hs / (g * T ^ 2)) Hs h ht Bt m Nod).
  assert (0 < N).
  { unfold N. rewrite Ns_split. apply Rplus_lt_0_compat; [lra|]. rpos. }
  exists (Hs / (buoyant rs rw * N)). split; [rpos|].
  apply and_comm.
  apply C53_damage_and_diameter_agree_with_relation; try assumption; [rpos|].
  unfold etemad2021. fold (buoyant rs rw). fold N. field. repeat split; lra.
Qed.

Theorem C53_damage_total :
  forall Hs T h ht Bt m Dn50 rs rw g,
    0 < Hs -> 0 < T -> 0 < h -> 0 < ht -> 0 < Bt -> m < 1 / 3.7 -> 0 < Dn50 ->
    0 < rw -> rw < rs -> 0 < g -> 1.2 < Hs / ((rs / rw - 1) * Dn50) ->
    exists Nod, 0 < Nod
      /\ value (damage_d (Fin Hs) (Fin T) (Fin h) (Fin ht) (Fin Bt) (Fin m) (Fin Dn50) (Fin rs) (Fin rw) (Fin g))
         = Ok (Fin Nod)
      /\ value (diameter_d (Fin Hs) (Fin T) (Fin h) (Fin ht) (Fin Bt) (Fin Nod) (Fin m) (Fin rs) (Fin rw) (Fin g))
         = Ok (Fin Dn50).
Proof.
  intros. pose proof (buoyant_pos rs rw) as HDe. assert (0 < buoyant rs rw) by auto.
  assert (Hm' : 0 < 1 - 3.7 * m).
  { apply (Rmult_lt_compat_l 3.7) in H4; [|lra]. replace (3.7 * (1 / 3.7)) with 1 in H4 by lra. lra. }
  fold (buoyant rs rw) in H9.
  set (s := 2 * PI * Hs / (g * T ^ 2)).
  set (K := 11.2 * Rpower (ht / h) (7 / 4) * Rpower s (1 / 6) * Rpower (Bt / Hs) (- (1 / 10)) * (1 - 3.7 * m)).
  assert (0 < K) by (unfold K; rpos).
  set (q := (Hs / (buoyant rs rw * Dn50) - 1.2) / K).
  assert (0 < q) by (unfold q; apply Rdiv_lt_0_compat; lra).
  exists (Rpower q (5 / 2)). split; [rpos|].
  apply C53_damage_and_diameter_agree_with_relation; try assumption; [rpos|].
  unfold etemad2021. fold (buoyant rs rw). fold s. rewrite Ns_split. fold K.
  rewrite Rpower_cancel by (assumption || field). unfold q. field. repeat split; lra.
Qed.

(** ** The wave-height iteration *)
Section Loop.
Variables (T h ht Bt Nod m D De g : R).
Hypotheses (HT : 0 < T) (Hh : 0 < h) (Hht : 0 < ht) (HBt : 0 < Bt) (HN : 0 < Nod)
  (HD : 0 < D) (HDe : 0 < De) (Hg : 0 < g).

Definition F (H : R) : R := De * D * etemad2021_Ns (steepness g H T) H h ht Bt m Nod.
Definition A : R := 1.2 * (De * D).
Definition B : R :=
  De * D * (11.2 * Rpower (ht / h) (7 / 4) * Rpower (2 * PI / (g * T ^ 2)) (1 / 6) * Rpower Nod (2 / 5)
     * Rpower Bt (- (1 / 10)) * (1 - 3.7 * m)).

Lemma F_eq H : 0 < H -> F H = A + B * Rpower H (4 / 15).
Proof.
  intros. unfold F, A, B, etemad2021_Ns.
  assert (0 < 2 * PI / (g * T ^ 2)) by rpos.
  replace (steepness g H T) with (2 * PI / (g * T ^ 2) * H)
    by (unfold steepness; field; split; lra).
  rewrite Rpower_mul, (Rpower_div Bt H) by assumption.
  replace (Rpower H (4 / 15)) with (Rpower H (1 / 6) / Rpower H (- (1 / 10))).
  - assert (0 < Rpower H (- (1 / 10))) by rpos. rfld.
  - rewrite Rpower_Ropp. unfold Rdiv. rewrite Rinv_inv, <- Rpower_plus. f_equal. lra.
Qed.

Lemma A_pos : 0 < A. Proof. unfold A. rpos. Qed.
Lemma B_pos : 3.7 * m <= 1 -> 0 <= B.
Proof.
  intros. unfold B. assert (0 <= 1 - 3.7 * m) by lra.
  rpos.
Qed.

Lemma loop_fin fuel : forall H d max_iter,
  (0 < max_iter)%nat -> 0 < H -> (forall n, 0 < iter F n H) ->
  Hs_loop fuel (Fin De) (Fin D) (Fin h) (Fin ht) (Fin Bt) (Fin Nod) (Fin m) (Fin T) (Fin g)
    c1_d c2_d c3_d c4_d c5_d c6_d c7_d 0 max_iter (Fin H) (Fin H) d (Fin (steepness g H T))
  = if ngt d #1e-3%num then
      match fuel with
      | O => Err OutOfFuel
      | S fuel =>
         match rloop F 1e-3 fuel (F H) (Rabs (F H - H)) with Some y => Ok (Fin y) | None => Err OutOfFuel end
      end
    else Ok (Fin H).
Proof.
  induction fuel; intros H d mi Hmi HH Hpos; cbn [Hs_loop];
    (replace (Nat.ltb 0 mi) with true by (symmetry; apply Nat.ltb_lt; lia)); rewrite andb_true_r.
  - destruct (ngt d _); reflexivity.
  - destruct (ngt d _) eqn:Ed; [|reflexivity].
    assert (HF : (Fin De * Fin D * (c1_d + c2_d * npow (Fin ht / Fin h) c3_d * npow (Fin (steepness g H T)) c4_d
        * npow (Fin Nod) c5_d * npow (Fin Bt / Fin H) c6_d * (#1 - c7_d * Fin m)))%num = Fin (F H)).
    { rewrite c3_val, c4_val, c5_val, c6_val. unfold c1_d, c2_d, c7_d.
      assert (0 < ht / h) by rpos. assert (0 < Bt / H) by rpos.
      pose proof (steepness_pos g H T). nfin. reflexivity. }
    rewrite HF.
    assert (HFp : 0 < F H) by (apply (Hpos 1%nat)).
    rewrite steepness_fin by assumption. cbv zeta. 
    rewrite (IHfuel (F H) _ mi Hmi HFp).
    + nfin. destruct fuel; simpl; destruct (Rltb 1e-3 (Rabs (F H - H))) eqn:E; try reflexivity.
    + intros n. rewrite <- iter_S_r. apply Hpos.
Qed.

Lemma F_log_lip : 3.7 * m <= 1 ->
  forall x y, 0 < x -> 0 < y -> Rabs (ln (F x) - ln (F y)) <= (4 / 15) * Rabs (ln x - ln y).
Proof.
  intros Hm. pose proof A_pos as HA. pose proof (B_pos Hm) as HB.
  apply log_lip_increasing; [lra| |].
  - intros x Hx. rewrite F_eq by assumption. assert (0 < Rpower x (4 / 15)) by rpos. nra.
  - intros x y Hx Hxy. rewrite !F_eq by lra.
    assert (Rpower x (4 / 15) <= Rpower y (4 / 15)) by (apply Rpower_le_base; lra).
    assert (0 < Rpower x (4 / 15)) by rpos. split; [nra|].
    rewrite Rpower_div by lra.
    assert (1 <= Rpower y (4 / 15) / Rpower x (4 / 15)).
    { apply (Rmult_le_reg_r (Rpower x (4 / 15))); [assumption|].
      unfold Rdiv. rewrite Rmult_assoc, Rinv_l by lra. lra. }
    rewrite Rmult_plus_distr_l.
    replace (Rpower y (4 / 15) / Rpower x (4 / 15) * (B * Rpower x (4 / 15)))
      with (B * Rpower y (4 / 15)) by (field; lra). nra.
Qed.

Lemma F_pos : 3.7 * m <= 1 -> forall x, 0 < x -> 0 < F x.
Proof.
  intros Hm x Hx. rewrite F_eq by assumption. pose proof A_pos. pose proof (B_pos Hm).
  assert (0 < Rpower x (4 / 15)) by rpos. nra.
Qed.
End Loop.

(** For foreshores up to 1:3.7 the loop ends for every positive input; its
    result is the formula evaluated at a wave height at most 1 mm away, and
    its distance to the one exact solution is bounded accordingly. *)
Theorem C53_wave_height_terminates :
  forall T h ht Bt Nod m Dn50 rs rw g s0 max_iter,
    0 < T -> 0 < h -> 0 < ht -> 0 < Bt -> 0 < Nod -> m <= 1 / 3.7 -> 0 < Dn50 ->
    0 < rw -> rw < rs -> 0 < g -> 0 < s0 -> (0 < max_iter)%nat ->
    exists fuel0 Hs H' Hexact,
      0 < Hs /\ 0 < H'
      /\ (forall fuel, (fuel >= fuel0)%nat ->
           value (wave_height_d fuel (Fin T) (Fin h) (Fin ht) (Fin Bt) (Fin Nod) (Fin m) (Fin Dn50)
                    (Fin rs) (Fin rw) (Fin g) (Fin s0) max_iter) = Ok (Fin Hs))
      /\ Rabs (Hs - H') <= 1e-3
      /\ Hs / ((rs / rw - 1) * Dn50) = etemad2021_Ns (2 * PI * H' / (g * T ^ 2)) H' h ht Bt m Nod
      /\ 0 < Hexact
      /\ (forall x, 0 < x ->
            (etemad2021 (rs / rw - 1) (2 * PI * x / (g * T ^ 2)) x h ht Bt m Dn50 Nod <-> x = Hexact))
      /\ Rabs (ln Hs - ln Hexact) <= 4 / 11 * Rabs (ln Hs - ln H').
Proof.
  intros * HT Hh Hht HBt HN Hm HD Hrw Hrs Hg Hs0 Hmi.
  pose proof (buoyant_pos rs rw Hrw Hrs) as HDe. set (De := buoyant rs rw) in *.
  assert (Hm' : 3.7 * m <= 1).
  { apply (Rmult_le_compat_l 3.7) in Hm; [|lra]. replace (3.7 * (1 / 3.7)) with 1 in Hm by lra. lra. }
  set (f := F T h ht Bt Nod m Dn50 De g).
  assert (Hfp : forall x, 0 < x -> 0 < f x) by (intros; apply F_pos; assumption).
  assert (Hlip : forall x y, 0 < x -> 0 < y -> Rabs (ln (f x) - ln (f y)) <= (4 / 15) * Rabs (ln x - ln y))
    by (intros; apply F_log_lip; assumption).
  destruct (log_contraction_fixpoint f (4 / 15) ltac:(lra) Hfp Hlip) as (p & Hp & Hfix & Hu & Hpost).
  set (H0 := s0 * T ^ 2 * g / (2 * PI)).
  assert (HH0 : 0 < H0) by (unfold H0; rpos).
  assert (Hit : forall n x, 0 < x -> 0 < iter f n x) by (intros; apply iter_pos; assumption).
  destruct (log_contraction_stops f (4 / 15) ltac:(lra) Hfp Hlip (f H0) 1e-3 (Hfp _ HH0) ltac:(lra)) as (N & HNN).
  assert (Hterm : exists y, rloop f 1e-3 (S N) (f H0) (Rabs (f H0 - H0)) = Some y).
  { apply (rloop_terminates f 1e-3 (f H0) (S N)); [|lia]. exists N. split; [lia|].
    apply Rlt_le, HNN. lia. }
  destruct Hterm as (y & Hy).
  assert (Hmono : forall fuel, (fuel >= S N)%nat -> rloop f 1e-3 fuel (f H0) (Rabs (f H0 - H0)) = Some y).
  { assert (G : forall n x d r, rloop f 1e-3 n x d = Some r ->
               forall n', (n' >= n)%nat -> rloop f 1e-3 n' x d = Some r).
    { induction n; intros x d r E n' Hn'; destruct n'; simpl in *; try lia;
        destruct (Rltb 1e-3 d); try discriminate; try assumption.
      apply IHn; [assumption|lia]. }
    intros. apply (G (S N)); assumption. }
  assert (Hres : exists x', 0 < x' /\ y = f x' /\ Rabs (y - x') <= 1e-3).
  { apply rloop_result in Hy. destruct Hy as [(L & ->)|(j & E & L)].
    - exists H0. auto.
    - exists (iter f j (f H0)). repeat split; auto. }
  destruct Hres as (x' & Hx' & Ey & Hdist).
  exists (S (S N)), y, x', p.
  assert (0 < De * Dn50) by rpos.
  repeat split; try assumption.
  - rewrite Ey. auto.
  - intros fuel Hfuel. unfold wave_height_d, calculate_significant_wave_height_Hs, value. cbn [snd].
    rewrite Delta_fin by lra. fold De. nfin. fold H0.
    replace (Fin s0) with (Fin (steepness g H0 T)).
    2:{ f_equal. unfold H0, steepness. pose proof PI_RGT_0. field. repeat split; lra. }
    rewrite loop_fin; try assumption.
    + simpl ngt. cbv iota. destruct fuel as [|fuel]; [lia|].
      fold f. rewrite Hmono by lia. reflexivity.
    + intros n. apply Hit. assumption.
  - fold (buoyant rs rw). fold De. rewrite Ey. unfold f, F. fold (steepness g x' T). field. split; lra.
  - intros R. fold (buoyant rs rw) in R. fold De in R. apply Hu; [assumption|].
    unfold etemad2021 in R. unfold f, F. fold (steepness g x T) in R. rewrite <- R. field. split; lra.
  - intros ->. unfold etemad2021. fold (buoyant rs rw). fold De. fold (steepness g p T).
    rewrite <- Hfix at 1. unfold f, F. field. split; lra.
  - pose proof (Hpost x' Hx') as P. rewrite <- Ey in P.
    replace (4 / 15 / (1 - 4 / 15)) with (4 / 11) in P by field. exact P.
Qed.

(** A two-cycle: for steeper foreshores there are positive inputs for which the
    loop never ends, whatever max_iter. *)
Theorem C53_max_iter_bounds_the_loop_refuted :
  exists T h ht Bt Nod m Dn50 rs rw g s0,
    0 < T /\ 0 < h /\ 0 < ht /\ 0 < Bt /\ 0 < Nod /\ 0 < m < 1 /\ 0 < Dn50
    /\ 0 < rw /\ rw < rs /\ 0 < g /\ 0 < s0
    /\ forall max_iter fuel, (0 < max_iter)%nat ->
         value (wave_height_d fuel (Fin T) (Fin h) (Fin ht) (Fin Bt) (Fin Nod) (Fin m) (Fin Dn50)
                    (Fin rs) (Fin rw) (Fin g) (Fin s0) max_iter) = Err OutOfFuel.
Proof.
  set (q := Rpower 2 (4 / 15)).
  assert (Hq1 : 1.2 < q).
  { unfold q. apply Rnot_le_lt. intros Hle.
    assert (Rpower (Rpower 2 (4 / 15)) 15 <= Rpower 1.2 15) by (apply Rpower_le_base; [lra|rpos|assumption]).
    rewrite (Rpower_pow_eq 2 (4 / 15) 15 4) in H by field.
    replace 4 with (INR 4) in H by (simpl; lra). replace 15 with (INR 15) in H by (simpl; lra).
    rewrite !Rpower_pow in H by lra. revert H. apply Rlt_not_le.
    cbn [pow]. lra. }
  assert (Hq2 : q < 2).
  { unfold q. rewrite <- (Rpower_1 2) at 2 by lra. apply Rpower_lt; lra. }
  set (b := 1 / (q - 1)). set (a := 2 + b).
  assert (0 < b) by (unfold b; apply Rdiv_lt_0_compat; lra).
  set (T := sqrt (2 * (2 * PI) / (0.03 * 9.81))).
  assert (HT : 0 < T) by (unfold T; rpos).
  set (kk := 11.2 * Rpower (2 * PI / (9.81 * T ^ 2)) (1 / 6)).
  assert (Hkk : 0 < kk) by (unfold kk; rpos).
  set (D := a / 1.2). assert (HD : 0 < D) by (unfold D, a; apply Rdiv_lt_0_compat; lra).
  set (m := (1 + b / (D * kk)) / 3.7).
  assert (HT2 : 2 * PI / (9.81 * T ^ 2) = 0.015).
  { unfold T. rewrite pow2_sqrt by rpos. pose proof PI_RGT_0. rfld. }
  assert (Hr : b / D < 1.2).
  { unfold D, a. apply (Rmult_lt_reg_r ((2 + b) / 1.2)); [apply Rdiv_lt_0_compat; lra|].
    unfold Rdiv at 1. rewrite Rmult_assoc, Rinv_l; [lra|]. apply Rgt_not_eq, Rdiv_lt_0_compat; lra. }
  assert (Hkk1 : 0.5 < kk).
  { unfold kk. rewrite HT2.
    assert (0.05 < Rpower 0.015 (1 / 6)); [|lra].
    apply Rnot_le_lt. intros Hle.
    assert (Rpower (Rpower 0.015 (1 / 6)) 6 <= Rpower 0.05 6) by (apply Rpower_le_base; [lra|rpos|assumption]).
    rewrite Rpower_cancel in H0 by lra.
    replace 6 with (INR 6) in H0 by (simpl; lra). rewrite Rpower_pow in H0 by lra.
    revert H0. apply Rlt_not_le. cbn [pow]. lra. }
  assert (Hm1 : b / (D * kk) < 2.4).
  { replace (b / (D * kk)) with (b / D / kk) by (field; lra).
    apply (Rmult_lt_reg_r kk); [assumption|]. unfold Rdiv at 1. rewrite Rmult_assoc, Rinv_l by lra. nra. }
  assert (Hm0 : 0 < b / (D * kk)) by rpos.
  exists T, 1, 1, 1, 1, m, D, 2, 1, 9.81, 0.03.
  repeat split; try lra; try (unfold m; lra).
  intros mi fuel Hmi.
  unfold wave_height_d, calculate_significant_wave_height_Hs, value. cbn [snd].
  rewrite Delta_fin by lra. nfin.
  assert (EH0 : 0.03 * T ^ 2 * 9.81 / (2 * PI) = 2).
  { unfold T. rewrite pow2_sqrt by rpos. pose proof PI_RGT_0. rfld. }
  rewrite EH0.
  replace (Fin 0.03) with (Fin (steepness 9.81 2 T)).
  2:{ f_equal. unfold steepness. transitivity (2 * (2 * PI / (9.81 * T ^ 2))); [field; lra|].
      rewrite HT2. lra. }
  assert (EDe : buoyant 2 1 = 1) by (unfold buoyant; lra). rewrite EDe.
  assert (EF : forall x, 0 < x -> F T 1 1 1 1 m D 1 9.81 x = a - b * Rpower x (4 / 15)).
  { intros x Hx. rewrite F_eq by (assumption || lra). unfold A, B.
    replace (1 / 1) with 1 by lra. rewrite !Rpower_1_base.
    replace (1.2 * (1 * D)) with a by (unfold D; lra).
    assert (1 - 3.7 * m = - (b / (D * kk))) by (unfold m; lra).
    rewrite H0. unfold kk.
    assert (0 < Rpower (2 * PI / (9.81 * T ^ 2)) (1 / 6)) by rpos. rfld. }
  assert (F1 : F T 1 1 1 1 m D 1 9.81 2 = 1).
  { rewrite EF by lra. fold q. unfold a, b. field. lra. }
  assert (F2 : F T 1 1 1 1 m D 1 9.81 1 = 2).
  { rewrite EF by lra. rewrite Rpower_1_base. unfold a. ring. }
  rewrite loop_fin; try assumption; try lra.
  - simpl ngt. cbv iota. destruct fuel as [|fuel]; [reflexivity|].
    rewrite F1. rewrite (rloop_two_cycle _ _ 1 2); [reflexivity| | | |]; try assumption.
    + rewrite Rabs_left by lra. lra.
    + rewrite Rabs_left by lra. lra.
  - intros n. assert (iter (F T 1 1 1 1 m D 1 9.81) n 2 = 2 \/ iter (F T 1 1 1 1 m D 1 9.81) n 2 = 1) as [->| ->]; try lra.
    induction n; [left; reflexivity|]. rewrite iter_S. destruct IHn as [->| ->]; auto.
Qed.

(** The validity check raises TypeError as soon as both the wave height and the
    period are supplied. *)
Theorem C53_validity_check_with_period_raises :
  forall Hs Tmm10 h ht Bt Dn50 m Nod ca ra rw,
    Hs <> NaN -> Tmm10 <> NaN ->
    value (check_validity Hs Tmm10 h ht Bt Dn50 m Nod ca ra rw) = Err TypeError.
Proof.
  intros. unfold check_validity. mval. rewrite value_when_check. mval.
  replace (provided Hs && provided Tmm10)%bool with true.
  - cbn [when]. mval. reflexivity.
  - destruct Hs, Tmm10; reflexivity || congruence.
Qed.

Example C53_example :
  exists Hs, exists fuel0, forall fuel, (fuel >= fuel0)%nat ->
   value (wave_height_d fuel #9 #8 #5 #4 #1 #0.02 #1 #2650 #1025 #9.81 #0.03 1000)%num = Ok (Fin Hs).
Proof.
  destruct (C53_wave_height_terminates 9 8 5 4 1 0.02 1 2650 1025 9.81 0.03 1000)
    as (f0 & Hs & ? & ? & ? & ? & V & _); try lra; try lia.
  exists Hs, f0. exact V.
Qed.
