(** Property C46: Jumelet et al. (2024). *)
From Coq Require Import Reals ZArith Arith Lra Lia List Bool String Psatz.
From Verif.Lib Require Import Num Monad RTac NTac.
From Verif.Spec Require Import Waves Rock.
From Verif.Model Require Import CoreUtility CorePhysics Jumelet2024.
From Verif.Proofs Require Import Core CheckTac VdM.
Import ListNotations.
Open Scope R_scope.

Lemma checks_ju a b c d : value (check_validity_range a b c d) = Ok tt.
Proof. unfold check_validity_range. mchecks. reflexivity. Qed.
Lemma usage_fin D m rho : check_usage_Dn50_or_M50 (Fin D) m rho = ret (Fin D).
Proof. reflexivity. Qed.

Lemma iter_succ_r n (f : num -> num) x : Nat.iter (S n) f x = Nat.iter n f (f x).
Proof. induction n; [reflexivity|]. cbn in *. rewrite IHn. reflexivity. Qed.

Lemma iter_succ_l n (f : num -> num) x : Nat.iter (S n) f x = f (Nat.iter n f x).
Proof. reflexivity. Qed.

(** ** Rounding *)
Lemma Rround_nearest x : exists n, Rround x = IZR n /\ nearest_whole n x.
Proof.
  unfold Rround, nearest_whole. destruct (base_Int_part x) as [A B].
  destruct (Rltb_spec (x - IZR (Int_part x)) (1 / 2)).
  - exists (Int_part x). split; [reflexivity|]. apply Rabs_le. lra.
  - destruct (Rltb_spec (1 / 2) (x - IZR (Int_part x))).
    + exists (Int_part x + 1)%Z. split; [reflexivity|]. rewrite plus_IZR. apply Rabs_le. lra.
    + destruct (Z.even (Int_part x)).
      * exists (Int_part x). split; [reflexivity|]. apply Rabs_le. lra.
      * exists (Int_part x + 1)%Z. split; [reflexivity|]. rewrite plus_IZR. apply Rabs_le. lra.
Qed.
Lemma IZR_close a b : Rabs (IZR a - IZR b) < 1 -> a = b.
Proof.
  intros H. apply Rabs_def2 in H. destruct H. rewrite <- minus_IZR in *. apply lt_IZR in H.
  apply (lt_IZR (-1)) in H0. lia.
Qed.
Lemma Rround_strict n x : Rabs (IZR n - x) < 1 / 2 -> Rround x = IZR n.
Proof.
  intros H. destruct (Rround_nearest x) as (m & E & L). rewrite E. f_equal. unfold nearest_whole in L.
  apply IZR_close. replace (IZR m - IZR n) with ((IZR m - x) - (IZR n - x)) by ring.
  eapply Rle_lt_trans; [apply Rabs_triang|]. rewrite Rabs_Ropp. lra.
Qed.

Lemma Fp_fin x : calculate_fraction_plunging_waves_Fp (Fin x) = Fin (plunging_fraction x).
Proof. unfold calculate_fraction_plunging_waves_Fp, plunging_fraction. nfin. reflexivity. Qed.

Lemma is_int_tenth : is_int 0.1 = false.
Proof.
  unfold is_int. apply Reqb_false. rewrite (Int_part_spec 0.1 0) by lra. lra.
Qed.
Lemma is_int_neg_tenth : is_int (-(0.1)) = false.
Proof.
  unfold is_int. apply Reqb_false. rewrite (Int_part_spec (-(0.1)) (-1)) by lra. lra.
Qed.

(** ** C46 *)

(** The number of plunging waves is a whole number nearest to the fraction of
    plunging waves times the number of waves; when it is positive, every point
    of the published relation is reproduced by the damage and diameter functions. *)
Theorem C46_functions_agree_with_relation :
  forall H T N cot rs, 0 < H -> 0 < T -> 0 < cot -> 1025 < rs ->
    exists n, nearest_whole n (plunging_fraction (iribarren g0 H T (1 / cot)) * N)
    /\ forall D c S m50, (0 < n)%Z -> 0 < D -> 0 < c -> 0 < S ->
       jumelet c n S (iribarren g0 H T (1 / cot)) (rs / 1025 - 1) D H ->
       value (calculate_damage_number_S (Fin H) (Fin T) (Fin N) (Fin cot) (Fin rs) (Fin D) m50 (Fin c) (Fin 1025))
         = Ok (Fin S)
       /\ value (calculate_nominal_rock_diameter_Dn50 (Fin H) (Fin T) (Fin N) (Fin cot) (Fin rs) (Fin S) (Fin c))
         = Ok (Fin D).
Proof.
  intros H T N cot rs HH HT Hcot Hrs. set (X := iribarren g0 H T (1 / cot)).
  assert (HX : 0 < X) by (apply iribarren_pos; try apply g0_pos; try assumption; rpos).
  destruct (Rround_nearest (plunging_fraction X * N)) as (n & En & Ln). exists n. split; [exact Ln|].
  intros D c S m50 Hn HD Hc HS E. apply IZR_lt in Hn.
  assert (HDe : 0 < buoyant rs 1025) by (apply buoyant_pos; lra).
  unfold jumelet in E. fold (buoyant rs 1025) in E. apply (f_equal ln) in E. revert E. ln_push. intros E.
  assert (0 < buoyant rs 1025 * D) by rpos.
  split.
  - unfold calculate_damage_number_S. rewrite usage_fin, bind_ret_l. mval. rewrite checks_ju. mval.
    rewrite iribarren_fin, Ns_fin by (assumption || lra). fold X. rewrite Fp_fin. nfin. rewrite En. nfin.
    do 2 f_equal. ln_eq. rewrite ?ln_1. lra.
  - unfold calculate_nominal_rock_diameter_Dn50. mval. rewrite checks_ju. mval.
    rewrite iribarren_fin, Delta_fin by (assumption || lra). fold X. rewrite Fp_fin. nfin. rewrite En. nfin.
    do 2 f_equal. ln_eq. rewrite ?ln_1. lra.
Qed.

Theorem C46_damage_and_diameter_exist :
  forall c n xi De H, 0 < c -> (0 < n)%Z -> 0 < xi -> 0 < De -> 0 < H ->
    (forall D, 0 < D -> exists S, 0 < S /\ jumelet c n S xi De D H)
    /\ (forall S, 0 < S -> exists D, 0 < D /\ jumelet c n S xi De D H).
Proof.
  intros c n xi De H Hc Hn Hxi HDe HH. apply IZR_lt in Hn. unfold jumelet. split; intros a Ha.
  - exists (Rpower (H / (De * a) * xi / (c * Rpower (IZR n) (-(0.1)))) 5). split; [rpos|].
    rewrite Rpower_cancel by (try lra; rpos). pose proof (Rpower_pos (IZR n) (-(0.1))). field. repeat split; lra.
  - exists (H / De * xi / (c * Rpower a 0.2 * Rpower (IZR n) (-(0.1)))). split; [rpos|].
    pose proof (Rpower_pos (IZR n) (-(0.1))). pose proof (Rpower_pos a 0.2). field. repeat split; lra.
Qed.

(** The fraction never exceeds 171/170, which is more than all waves. *)
Theorem C46_plunging_fraction_bound :
  forall xi, calculate_fraction_plunging_waves_Fp (Fin xi) = Fin (171 / 170 - 1.7 * (xi - 16 / 17) ^ 2).
Proof. intros. rewrite Fp_fin. f_equal. unfold plunging_fraction. lra. Qed.

Theorem C46_fraction_at_most_one_refuted :
  exists xi f, 0.42 <= xi <= 1.66 /\ calculate_fraction_plunging_waves_Fp (Fin xi) = Fin f /\ 1 < f.
Proof.
  exists (16 / 17), (171 / 170). rewrite C46_plunging_fraction_bound. split; [lra|]. split; [|lra].
  f_equal. lra.
Qed.

(** The number of waves matters only through that whole number. *)
Theorem C46_depends_on_whole_number :
  forall H T N N' cot rs D m50 c rw S n, 0 < H -> 0 < T -> 0 < cot ->
    let F := plunging_fraction (iribarren g0 H T (1 / cot)) in
    Rabs (IZR n - F * N) < 1 / 2 -> Rabs (IZR n - F * N') < 1 / 2 ->
    value (calculate_damage_number_S (Fin H) (Fin T) (Fin N) (Fin cot) rs D m50 c rw)
    = value (calculate_damage_number_S (Fin H) (Fin T) (Fin N') (Fin cot) rs D m50 c rw)
    /\ value (calculate_nominal_rock_diameter_Dn50 (Fin H) (Fin T) (Fin N) (Fin cot) rs S c)
    = value (calculate_nominal_rock_diameter_Dn50 (Fin H) (Fin T) (Fin N') (Fin cot) rs S c).
Proof.
  intros * HH HT Hc F L L'. apply Rround_strict in L. apply Rround_strict in L'.
  unfold calculate_damage_number_S, calculate_nominal_rock_diameter_Dn50.
  rewrite iribarren_fin by (assumption || lra). rewrite Fp_fin. fold F. nfin. rewrite L, L'. split.
  - mval. destruct (value (check_usage_Dn50_or_M50 D m50 rs)); [|reflexivity]. mval. rewrite !checks_ju. reflexivity.
  - mval. rewrite !checks_ju. reflexivity.
Qed.

(** Where the fraction is negative (long waves) there is no number. *)
Theorem C46_no_number_for_long_waves :
  forall H T N cot rs D m50 c rw S, 0 < H -> 0 < T -> 0 < cot ->
    plunging_fraction (iribarren g0 H T (1 / cot)) * N < - (1 / 2) -> c <> 0 -> 0 < D -> 0 < rw -> rw < rs -> 1025 < rs ->
    0 < S ->
    value (calculate_damage_number_S (Fin H) (Fin T) (Fin N) (Fin cot) (Fin rs) (Fin D) m50 (Fin c) (Fin rw)) = Ok NaN
    /\ value (calculate_nominal_rock_diameter_Dn50 (Fin H) (Fin T) (Fin N) (Fin cot) (Fin rs) (Fin S) (Fin c)) = Ok NaN.
Proof.
  intros H T N cot rs D m50 c rw S HH HT Hcot L Hc HD Hrw Hrs Hrs' HS.
  set (X := iribarren g0 H T (1 / cot)) in *.
  destruct (Rround_nearest (plunging_fraction X * N)) as (n & En & Ln).
  unfold nearest_whole in Ln. assert (Hn : IZR n < 0).
  { pose proof (Rle_abs (IZR n - plunging_fraction X * N)). lra. }
  assert (HDe : 0 < buoyant rs 1025) by (apply buoyant_pos; lra).
  split.
  - unfold calculate_damage_number_S. rewrite usage_fin, bind_ret_l. mval. rewrite checks_ju. mval.
    rewrite iribarren_fin, Ns_fin by (assumption || lra). fold X. rewrite Fp_fin. nfin. rewrite En.
    rewrite npow_neg_nonint by (assumption || apply is_int_tenth). nnan. reflexivity.
  - unfold calculate_nominal_rock_diameter_Dn50. mval. rewrite checks_ju. mval.
    rewrite iribarren_fin, Delta_fin by (assumption || lra). fold X. rewrite Fp_fin. nfin. rewrite En.
    rewrite npow_neg_nonint by (assumption || apply is_int_tenth). nnan. reflexivity.
Qed.

(** *** The wave-height iteration *)
Section Height.
Variables (T N cot rs S D c : R).
Hypotheses (HT : 0 < T) (HN : 0 < N) (Hcot : 0 < cot) (Hrs : 1025 < rs) (HS : 0 < S) (HD : 0 < D) (Hc : 0 < c).
Let De := buoyant rs 1025.
Let X (H : R) := iribarren g0 H T (1 / cot).
Let step (ksi : num) : num :=
  (npow (Fin c * npow (Fin S) #0.2 * npow (nround (calculate_fraction_plunging_waves_Fp ksi * Fin N)) (- #0.1)
   * Fin cot * nsqrt ((#2 * npi / Fin g0) * npow (Fin T) (- #2)) * Fin De * Fin D) #2)%num.

Lemma De_p : 0 < De. Proof. apply buoyant_pos; lra. Qed.

Definition tame (v : num) : Prop := (exists p, v = Fin p /\ 0 < p) \/ v = PInf \/ v = NaN.

Lemma step_count n x : Rround (plunging_fraction x * N) = IZR n ->
  ((n < 0)%Z -> step (Fin x) = NaN) /\ (n = 0%Z -> step (Fin x) = PInf)
  /\ ((0 < n)%Z -> exists h, 0 < h /\ step (Fin x) = Fin h /\ jumelet c n S (X h) De D h).
Proof.
  intros En. pose proof De_p as HDe. pose proof g0_pos. pose proof PI_RGT_0.
  assert (0 < 2 * PI / g0) by rpos.
  assert (0 < 2 * PI / g0 * Rpower T (-(2))) by rpos.
  set (q := 2 * PI / g0 * Rpower T (-(2))) in *.
  assert (B : step (Fin x) =
    npow (Fin c * Fin (Rpower S 0.2) * npow (Fin (IZR n)) (Fin (-(0.1))) * Fin cot * Fin (sqrt q) * Fin De * Fin D)%num (Fin 2)).
  { unfold step. rewrite Fp_fin. nfin. rewrite En. fold q. reflexivity. }
  rewrite B. split; [|split].
  - intros Hn. apply IZR_lt in Hn. rewrite npow_neg_nonint by (assumption || apply is_int_neg_tenth).
    nnan. reflexivity.
  - intros ->. rewrite npow_0_neg by lra. nfin.
    rewrite nmul_pos_pinf by rpos. rewrite !nmul_pinf_pos by rpos. cbn. rewrite Reqb_false by lra.
    rewrite Rltb_true by lra. reflexivity.
  - intros Hn. apply IZR_lt in Hn. nfin.
    set (b := c * Rpower S 0.2 * Rpower (IZR n) (-(0.1)) * cot * sqrt q * De * D).
    assert (Hb : 0 < b) by (unfold b; rpos).
    exists (b ^ 2). assert (0 < b ^ 2) by rpos. split; [assumption|]. split; [reflexivity|].
    unfold jumelet. assert (HX : 0 < X (b ^ 2)) by (apply iribarren_pos; try apply g0_pos; try assumption; rpos).
    assert (LX : ln (X (b ^ 2)) = - ln cot - / 2 * (ln q + 2 * ln b)).
    { unfold X. fold (xi cot g0 T (b ^ 2)). rewrite ln_xi by assumption. rewrite ln_pow by assumption.
      cbn [INR]. replace (K g0 T) with q. { lra. }
      unfold q, K. rewrite Rpower_Ropp, Rpower_2 by assumption. field. split; lra. }
    assert (Lb : ln b = ln c + 0.2 * ln S - 0.1 * ln (IZR n) + ln cot + / 2 * ln q + ln De + ln D).
    { unfold b. ln_push. lra. }
    ln_eq. rewrite LX. lra.
Qed.

Lemma step_nan : step (calculate_Iribarren_number_ksi NaN (Fin T) (Fin cot)) = NaN.
Proof.
  unfold step, calculate_Iribarren_number_ksi, calculate_wave_steepness_s, calculate_fraction_plunging_waves_Fp.
  nnan. change (nround NaN) with NaN. rewrite nneg_fin. nnan. reflexivity.
Qed.

Lemma step_tame v : tame v -> tame (step (calculate_Iribarren_number_ksi v (Fin T) (Fin cot))).
Proof.
  intros [(p & -> & Hp)|[->| ->]].
  - rewrite iribarren_fin by (assumption || lra).
    destruct (Rround_nearest (plunging_fraction (iribarren g0 p T (1 / cot)) * N)) as (n & En & _).
    destruct (step_count n _ En) as (A & B & C).
    destruct (Ztrichotomy n 0) as [L|[L|L]].
    + rewrite A by assumption. right. right. reflexivity.
    + rewrite B by assumption. right. left. reflexivity.
    + apply Z.gt_lt in L. destruct (C L) as (h & Hh & E & _). rewrite E. left. eauto.
  - assert (E : calculate_Iribarren_number_ksi PInf (Fin T) (Fin cot) = Fin 0).
    { unfold calculate_Iribarren_number_ksi, calculate_wave_steepness_s, g_default. pose proof PI_RGT_0.
      nfin. rewrite nmul_pos_pinf by rpos. rewrite ndiv_pinf_pos by rpos.
      change (nsqrt PInf) with PInf. reflexivity. }
    rewrite E. destruct (Rround_nearest (plunging_fraction 0 * N)) as (n & En & _).
    destruct (step_count n 0 En) as (A & B & C).
    destruct (Ztrichotomy n 0) as [L|[L|L]].
    + rewrite A by assumption. right. right. reflexivity.
    + rewrite B by assumption. right. left. reflexivity.
    + apply Z.gt_lt in L. destruct (C L) as (h & Hh & E' & _). rewrite E'. left. eauto.
  - right. right. apply step_nan.
Qed.

(** What the loop returns, when it is a number. *)
Lemma loop_inv tol : forall todo p d ksi cur v,
  tame p -> ksi = calculate_Iribarren_number_ksi p (Fin T) (Fin cot) ->
  (cur = None \/ cur = Some p) ->
  wave_height_loop step (Fin T) (Fin cot) (Fin tol) todo p d ksi cur = Some v ->
  cur = Some v \/ exists p0, tame p0 /\ v = step (calculate_Iribarren_number_ksi p0 (Fin T) (Fin cot)).
Proof.
  induction todo; intros p d ksi cur v Hp Hk Hcur E; cbn [wave_height_loop] in E; destruct (ngt d (Fin tol)).
  - left. exact E.
  - left. exact E.
  - subst ksi. set (q := step (calculate_Iribarren_number_ksi p (Fin T) (Fin cot))) in *.
    assert (Hq : tame q) by (apply step_tame; assumption).
    apply IHtodo in E; [|assumption|reflexivity|right; reflexivity].
    destruct E as [E|E]; [|right; exact E]. injection E as <-. right. exists p. split; [assumption|reflexivity].
  - left. exact E.
Qed.

Lemma loop_stops tol : forall todo p d ksi cur v,
  tame p -> ksi = calculate_Iribarren_number_ksi p (Fin T) (Fin cot) ->
  (cur = None /\ d = PInf \/ exists p0, tame p0 /\ cur = Some p /\ d = nabs (p - p0)%num
     /\ p = step (calculate_Iribarren_number_ksi p0 (Fin T) (Fin cot))) ->
  wave_height_loop step (Fin T) (Fin cot) (Fin tol) todo p d ksi cur = Some v ->
  exists p0, tame p0 /\ v = step (calculate_Iribarren_number_ksi p0 (Fin T) (Fin cot))
    /\ (ngt (nabs (v - p0)%num) (Fin tol) = false
        \/ v = Nat.iter todo (fun x => step (calculate_Iribarren_number_ksi x (Fin T) (Fin cot))) p).
Proof.
  induction todo; intros p d ksi cur v Hp Hk Hcur E; cbn [wave_height_loop] in E; destruct (ngt d (Fin tol)) eqn:G.
  - destruct Hcur as [(-> & _)|(p0 & Hp0 & -> & -> & Ep)]; [discriminate|]. injection E as <-.
    exists p0. split; [assumption|]. split; [assumption|]. right. reflexivity.
  - destruct Hcur as [(-> & _)|(p0 & Hp0 & -> & -> & Ep)]; [discriminate|]. injection E as <-.
    exists p0. split; [assumption|]. split; [assumption|]. left. assumption.
  - subst ksi. set (q := step (calculate_Iribarren_number_ksi p (Fin T) (Fin cot))) in *.
    assert (Hq : tame q) by (apply step_tame; assumption).
    apply IHtodo in E; [|assumption|reflexivity|].
    + destruct E as (p0 & Hp0 & Ev & H). exists p0. split; [assumption|]. split; [assumption|].
      destruct H as [H|H]; [left; assumption|right]. rewrite H. unfold q.
      rewrite iter_succ_r. reflexivity.
    + right. exists p. repeat split; try assumption.
  - destruct Hcur as [(-> & _)|(p0 & Hp0 & -> & -> & Ep)]; [discriminate|]. injection E as <-.
    exists p0. split; [assumption|]. split; [assumption|]. left. assumption.
Qed.

Lemma init_fin s : 0 < s -> (Fin s * npow (Fin T) (Fin 2) * Fin g0 / (Fin 2 * npi))%num = Fin (s * T ^ 2 * g0 / (2 * PI)).
Proof. intros. pose proof PI_RGT_0. nfin. reflexivity. Qed.

(** Whenever the wave-height function returns a number, the number has the
    prescribed damage for the number of plunging waves of a wave height H0,
    and unless the cap on the iterations was reached H0 is within the
    tolerance of the result. *)
Lemma height_result s m50 max_iter tol h : 0 < s ->
  value (calculate_significant_wave_height_Hs (Fin T) (Fin N) (Fin cot) (Fin rs) (Fin S) (Fin D) m50 (Fin c) (Fin g0)
           (Fin s) max_iter (Fin tol)) = Ok (Fin h) ->
  exists h0 n, 0 < h0 /\ (0 < n)%Z /\ nearest_whole n (plunging_fraction (X h0) * N) /\ Rround (plunging_fraction (X h0) * N) = IZR n
    /\ 0 < h /\ jumelet c n S (X h) De D h
    /\ (Rabs (h - h0) <= tol \/ Fin h = Nat.iter max_iter (fun x => step (calculate_Iribarren_number_ksi x (Fin T) (Fin cot)))
                                       (Fin (s * T ^ 2 * g0 / (2 * PI)))).
Proof.
  intros Hs V. unfold calculate_significant_wave_height_Hs in V. rewrite usage_fin, bind_ret_l in V.
  rewrite init_fin in V by assumption. rewrite Delta_fin in V by lra. fold De in V. 
  fold step in V.
  destruct (wave_height_loop step (Fin T) (Fin cot) (Fin tol) max_iter (Fin (s * T ^ 2 * g0 / (2 * PI))) PInf
    (calculate_Iribarren_number_ksi (Fin (s * T ^ 2 * g0 / (2 * PI))) (Fin T) (Fin cot)) None) as [v|] eqn:E.
  2:{ revert V. mval. discriminate. }
  revert V. mval. rewrite checks_ju. mval. intros V. injection V as ->.
  assert (0 < s * T ^ 2 * g0 / (2 * PI)) by (pose proof PI_RGT_0; pose proof g0_pos; rpos).
  apply loop_stops in E; [|left; eauto|reflexivity|left; split; reflexivity].
  destruct E as (p0 & Hp0 & Ev & Q).
  assert (F0 : exists h0, p0 = Fin h0 /\ 0 < h0).
  { destruct Hp0 as [(p & -> & Hp)|[->| ->]]; [eauto| |].
    - exfalso.
      assert (E : calculate_Iribarren_number_ksi PInf (Fin T) (Fin cot) = Fin 0).
      { unfold calculate_Iribarren_number_ksi, calculate_wave_steepness_s, g_default. pose proof PI_RGT_0.
        nfin. rewrite nmul_pos_pinf by rpos. rewrite ndiv_pinf_pos by rpos.
        change (nsqrt PInf) with PInf. reflexivity. }
      rewrite E in Ev. destruct (Rround_nearest (plunging_fraction 0 * N)) as (n & En & Ln).
      destruct (step_count n 0 En) as (A & B & _).
      unfold nearest_whole, plunging_fraction in Ln.
      replace (-(1.7) * 0 ^ 2 + 3.2 * 0 - 0.5) with (-(1/2)) in Ln by lra.
      destruct (Z_lt_le_dec n 0) as [L|L]; [rewrite A in Ev by assumption; discriminate|].
      destruct (Z.eq_dec n 0) as [->|NZ]; [rewrite B in Ev by reflexivity; discriminate|].
      assert (1 <= IZR n) by (apply IZR_le; lia). pose proof (Rle_abs (IZR n - -(1/2) * N)). lra.
    - exfalso. rewrite step_nan in Ev. discriminate. }
  destruct F0 as (h0 & -> & Hh0). rewrite iribarren_fin in Ev by (assumption || lra).
  destruct (Rround_nearest (plunging_fraction (iribarren g0 h0 T (1 / cot)) * N)) as (n & En & Ln).
  destruct (step_count n _ En) as (A & B & C). exists h0, n.
  destruct (Ztrichotomy n 0) as [L|[L|L]]; [rewrite A in Ev by assumption; discriminate|rewrite B in Ev by assumption; discriminate|].
  apply Z.gt_lt in L. destruct (C L) as (h' & Hh' & E' & J). rewrite E' in Ev. injection Ev as ->.
  repeat (split; [assumption|]). destruct Q as [Q|Q]; [left|right; exact Q].
  revert Q. nfin. intros Q. destruct (Rltb_spec tol (Rabs (h' - h0))); [discriminate|]. lra.
Qed.
End Height.

Theorem C46_wave_height_residual :
  forall T N cot rs S D c s m50 max_iter tol h,
    0 < T -> 0 < N -> 0 < cot -> 1025 < rs -> 0 < S -> 0 < D -> 0 < c -> 0 < s ->
    value (calculate_significant_wave_height_Hs (Fin T) (Fin N) (Fin cot) (Fin rs) (Fin S) (Fin D) m50 (Fin c) (Fin g0)
             (Fin s) max_iter (Fin tol)) = Ok (Fin h) ->
    exists h0 n n', 0 < h /\ 0 < h0
      /\ nearest_whole n (plunging_fraction (iribarren g0 h0 T (1 / cot)) * N)
      /\ nearest_whole n' (plunging_fraction (iribarren g0 h T (1 / cot)) * N) /\ (0 < n)%Z
      /\ ((0 < n')%Z ->
          value (calculate_damage_number_S (Fin h) (Fin T) (Fin N) (Fin cot) (Fin rs) (Fin D) m50 (Fin c) (Fin 1025))
          = Ok (Fin (S * sqrt (IZR n' / IZR n)))).
Proof.
  intros T N cot rs S D c s m50 max_iter tol h HT HN Hcot Hrs HS HD Hc Hs V.
  apply height_result in V; try assumption. destruct V as (h0 & n & Hh0 & Hn & Ln & _ & Hh & J & _).
  destruct (C46_functions_agree_with_relation h T N cot rs) as (n' & Ln' & F); try assumption.
  exists h0, n, n'. repeat (split; [assumption|]). intros Hn'.
  assert (0 < IZR n) by (apply IZR_lt; assumption). assert (0 < IZR n') by (apply IZR_lt; assumption).
  apply F; try assumption; [rpos|].
  assert (HX : 0 < iribarren g0 h T (1 / cot)) by (apply iribarren_pos; try apply g0_pos; try assumption; rpos).
  assert (HDe : 0 < buoyant rs 1025) by (apply buoyant_pos; lra).
  unfold jumelet in *. fold (buoyant rs 1025). rewrite J. assert (0 < IZR n' / IZR n) by rpos. ln_eq. lra.
Qed.

(** Once one more iteration does not change the result, the prescribed damage is
    met exactly, unless a wave height within the tolerance of the result has
    another number of plunging waves. *)
Theorem C46_wave_height_exact_when_settled :
  forall T N cot rs Sd D c s m50 max_iter tol h n,
    0 < T -> 0 < N -> 0 < cot -> 1025 < rs -> 0 < Sd -> 0 < D -> 0 < c -> 0 < s -> 0 <= tol ->
    value (calculate_significant_wave_height_Hs (Fin T) (Fin N) (Fin cot) (Fin rs) (Fin Sd) (Fin D) m50 (Fin c) (Fin g0)
             (Fin s) max_iter (Fin tol)) = Ok (Fin h) ->
    value (calculate_significant_wave_height_Hs (Fin T) (Fin N) (Fin cot) (Fin rs) (Fin Sd) (Fin D) m50 (Fin c) (Fin g0)
             (Fin s) (S max_iter) (Fin tol)) = Ok (Fin h) ->
    (forall h0, 0 < h0 -> Rabs (h - h0) <= tol ->
       Rabs (IZR n - plunging_fraction (iribarren g0 h0 T (1 / cot)) * N) < 1 / 2) ->
    jumelet c n Sd (iribarren g0 h T (1 / cot)) (rs / 1025 - 1) D h
    /\ value (calculate_damage_number_S (Fin h) (Fin T) (Fin N) (Fin cot) (Fin rs) (Fin D) m50 (Fin c) (Fin 1025)) = Ok (Fin Sd).
Proof.
  intros T N cot rs Sd D c s m50 max_iter tol h n HT HN Hcot Hrs HS HD Hc Hs Htol V V' L.
  apply height_result in V; try assumption. apply height_result in V'; try assumption.
  destruct V as (h0 & n0 & Hh0 & Hn & Ln & En & Hh & J & Q).
  destruct V' as (h0' & n0' & Hh0' & Hn' & Ln' & En' & Hh' & J' & Q').
  assert (Lh : Rabs (h - h) <= tol) by (replace (h - h) with 0 by ring; rewrite Rabs_R0; lra).
  assert (Res : jumelet c n Sd (iribarren g0 h T (1 / cot)) (buoyant rs 1025) D h /\ (0 < n)%Z).
  { assert (W : forall h1 m, 0 < h1 -> Rabs (h - h1) <= tol ->
      Rround (plunging_fraction (iribarren g0 h1 T (1 / cot)) * N) = IZR m -> m = n).
    { intros h1 m P1 P2 P3. specialize (L h1 P1 P2). apply Rround_strict in L. rewrite L in P3.
      apply eq_IZR in P3. congruence. }
    destruct Q as [Q|Q]; [|destruct Q' as [Q'|Q']].
    - rewrite <- (W h0 n0) by assumption. split; assumption.
    - rewrite <- (W h0' n0') by assumption. split; assumption.
    - rewrite iter_succ_l, <- Q in Q'. rewrite iribarren_fin in Q' by (assumption || lra).
      destruct (Rround_nearest (plunging_fraction (iribarren g0 h T (1 / cot)) * N)) as (m & Em & Lm).
      destruct (step_count T N cot rs Sd D c HT Hcot Hrs HS HD Hc m _ Em) as (A & B & C).
      destruct (Ztrichotomy m 0) as [G|[G|G]]; [rewrite A in Q' by assumption; discriminate|rewrite B in Q' by assumption; discriminate|].
      apply Z.gt_lt in G. destruct (C G) as (h' & _ & E' & J2). rewrite E' in Q'. injection Q' as <-.
      rewrite <- (W h m) by assumption. split; assumption. }
  destruct Res as [Res Pn]. split; [exact Res|].
  destruct (C46_functions_agree_with_relation h T N cot rs) as (n' & Ln2 & F); try assumption.
  assert (n' = n).
  { specialize (L h Hh Lh). unfold nearest_whole in Ln2. apply IZR_close.
    set (y := plunging_fraction (iribarren g0 h T (1 / cot)) * N) in *.
    replace (IZR n' - IZR n) with ((IZR n' - y) - (IZR n - y)) by ring.
    eapply Rle_lt_trans; [apply Rabs_triang|]. rewrite Rabs_Ropp. lra. }
  subst n'. apply F; assumption.
Qed.

(** Started at a solution the iteration returns it. *)
Theorem C46_wave_height_fixed_point :
  forall T N cot rs Sd D c s m50 k tol n,
    0 < T -> 0 < N -> 0 < cot -> 1025 < rs -> 0 < Sd -> 0 < D -> 0 < c -> 0 < s -> 0 <= tol -> (0 < n)%Z ->
    let h := s * T ^ 2 * g0 / (2 * PI) in
    Rabs (IZR n - plunging_fraction (iribarren g0 h T (1 / cot)) * N) < 1 / 2 ->
    jumelet c n Sd (iribarren g0 h T (1 / cot)) (rs / 1025 - 1) D h ->
    value (calculate_significant_wave_height_Hs (Fin T) (Fin N) (Fin cot) (Fin rs) (Fin Sd) (Fin D) m50 (Fin c) (Fin g0)
             (Fin s) (S k) (Fin tol)) = Ok (Fin h).
Proof.
  intros T N cot rs Sd D c s m50 k tol n HT HN Hcot Hrs HS HD Hc Hs Htol Hn h L J.
  pose proof PI_RGT_0. pose proof g0_pos.
  assert (Hh : 0 < h) by (unfold h; rpos). apply Rround_strict in L.
  destruct (step_count T N cot rs Sd D c HT Hcot Hrs HS HD Hc n _ L) as (_ & _ & C).
  destruct (C Hn) as (h' & Hh' & E & J').
  assert (h' = h).
  { assert (0 < IZR n) by (apply IZR_lt; assumption).
    assert (HX : 0 < iribarren g0 h T (1 / cot)) by (apply iribarren_pos; try apply g0_pos; try assumption; rpos).
    assert (HX' : 0 < iribarren g0 h' T (1 / cot)) by (apply iribarren_pos; try apply g0_pos; try assumption; rpos).
    assert (HDe : 0 < buoyant rs 1025) by (apply buoyant_pos; lra).
    unfold jumelet in J, J'. fold (buoyant rs 1025) in J.
    apply (f_equal ln) in J. apply (f_equal ln) in J'. revert J J'. ln_push.
    fold (xi cot g0 T h) (xi cot g0 T h'). rewrite !ln_xi by assumption. intros J J'.
    apply ln_inv; try assumption. lra. }
  subst h'.
  unfold calculate_significant_wave_height_Hs. rewrite usage_fin, bind_ret_l.
  rewrite init_fin by assumption. fold h. rewrite Delta_fin by lra.
  rewrite !iribarren_fin by (assumption || lra).
  cbn [wave_height_loop]. change (ngt PInf (Fin tol)) with true. cbv iota zeta.
  match goal with |- context [wave_height_loop ?st _ _ _ _ ?v _ _ _] => change v with (st (Fin (iribarren g0 h T (1 / cot)))) at 1 end.
  rewrite !E. nfin. replace (h - h) with 0 by ring. rewrite Rabs_R0.
  assert (G : forall st c0 ksi, wave_height_loop st (Fin T) (Fin cot) (Fin tol) k (Fin h) (Fin 0) ksi (Some c0) = Some c0).
  { intros. destruct k; cbn [wave_height_loop]; nfin; rewrite Rltb_false by lra; reflexivity. }
  rewrite G. mval. rewrite checks_ju. mval. reflexivity.
Qed.

Theorem C46_zero_iterations_fail :
  forall T N cot rs S D m50 c g s tol,
    value (calculate_significant_wave_height_Hs T N cot rs S (Fin D) m50 c g s 0 (Fin tol)) = Err UnboundLocalError.
Proof.
  intros. unfold calculate_significant_wave_height_Hs. rewrite usage_fin, bind_ret_l. cbn [wave_height_loop].
  change (ngt PInf (Fin tol)) with true. mval. reflexivity.
Qed.

(** A gently sloping structure with Iribarren number 1: all 1000 waves plunge. *)
Example C46_example :
  let H := 1 / 64 * 6 ^ 2 * g0 / (2 * PI) in
  exists D, 0 < D
    /\ value (calculate_nominal_rock_diameter_Dn50 (Fin H) (Fin 6) (Fin 1000) (Fin 8) (Fin 2650) (Fin 2) c_pl_default) = Ok (Fin D)
    /\ value (calculate_damage_number_S (Fin H) (Fin 6) (Fin 1000) (Fin 8) (Fin 2650) (Fin D) NaN c_pl_default (Fin 1025)) = Ok (Fin 2)
    /\ value (calculate_significant_wave_height_Hs (Fin 6) (Fin 1000) (Fin 8) (Fin 2650) (Fin 2) (Fin D) NaN c_pl_default (Fin g0)
         (Fin (1 / 64)) 1000 (Fin 1e-5)) = Ok (Fin H).
Proof.
  intros H. pose proof PI_RGT_0. pose proof g0_pos.
  assert (HH : 0 < H) by (unfold H; rpos).
  assert (X1 : iribarren g0 H 6 (1 / 8) = 1).
  { assert (P : 0 < iribarren g0 H 6 (1 / 8)) by (apply iribarren_pos; lra).
    apply ln_inv; [assumption|lra|]. fold (xi 8 g0 6 H). rewrite ln_xi by lra.
    assert (K g0 6 * H = / 64).
    { unfold H, K. field. split; lra. }
    rewrite ln_1. assert (0 < K g0 6) by (unfold K; rpos).
    assert (ln (K g0 6) + ln H = - ln 64) by (rewrite <- ln_mult, H2, ln_Rinv by lra; reflexivity).
    assert (ln 64 = 2 * ln 8) by (replace 64 with (8 ^ 2) by lra; rewrite ln_pow by lra; cbn [INR]; lra).
    lra. }
  destruct (C46_damage_and_diameter_exist 4.3 1000 1 (2650 / 1025 - 1) H) as [_ E]; try lra; try lia.
  destruct (E 2) as (D & HD & J); [lra|]. exists D. split; [assumption|].
  destruct (C46_functions_agree_with_relation H 6 1000 8 2650) as (n & Ln & F); try lra.
  rewrite X1 in *. unfold plunging_fraction, nearest_whole in Ln.
  replace ((-(1.7) * 1 ^ 2 + 3.2 * 1 - 0.5) * 1000) with (IZR 1000) in Ln by lra.
  assert (n = 1000%Z) by (apply IZR_close; lra). subst n.
  destruct (F D 4.3 2 NaN) as [F1 F2]; try lra; try lia; try assumption.
  split; [exact F2|]. split; [exact F1|].
  unfold H. apply (C46_wave_height_fixed_point 6 1000 8 2650 2 D 4.3 (1/64) NaN 999 1e-5 1000); try lra; try lia; fold H; rewrite X1.
  - unfold plunging_fraction. rewrite Rabs_pos_eq; lra.
  - exact J.
Qed.

(** The default start is a wave of steepness 0.03 whatever its period. *)
Lemma start_iribarren T cot : 0 < T -> 0 < cot ->
  let x := iribarren g0 (0.03 * T ^ 2 * g0 / (2 * PI)) T (1 / cot) in 0 < x /\ 0.03 * (x * cot) ^ 2 = 1.
Proof.
  intros HT Hc x. pose proof PI_RGT_0. pose proof g0_pos.
  assert (Hh : 0 < 0.03 * T ^ 2 * g0 / (2 * PI)) by (apply Rdiv_lt_0_compat; [|lra]; apply Rmult_lt_0_compat; [apply Rmult_lt_0_compat; [lra|apply pow_lt; assumption]|assumption]).
  split; [apply iribarren_pos; try assumption; rpos|]. unfold x, iribarren, steepness.
  replace (2 * PI * (0.03 * T ^ 2 * g0 / (2 * PI)) / (g0 * T ^ 2)) with 0.03 by (field; repeat split; lra).
  assert (Q : sqrt 0.03 ^ 2 = 0.03) by (rewrite pow2_sqrt; lra). assert (0 < sqrt 0.03) by (apply sqrt_lt_R0; lra).
  replace ((1 / cot / sqrt 0.03 * cot) ^ 2) with (1 / sqrt 0.03 ^ 2) by (field; lra). rewrite Q. field. lra.
Qed.

Lemma one_step T N cot rs Sd D c s m50 tol : 0 < T -> 0 < cot -> 1025 < rs -> 0 < Sd -> 0 < D -> 0 < c -> 0 < s ->
  let h0 := s * T ^ 2 * g0 / (2 * PI) in
  exists n, nearest_whole n (plunging_fraction (iribarren g0 h0 T (1 / cot)) * N)
  /\ ((n < 0)%Z -> forall k, value (calculate_significant_wave_height_Hs (Fin T) (Fin N) (Fin cot) (Fin rs) (Fin Sd) (Fin D) m50 (Fin c) (Fin g0) (Fin s) (S k) (Fin tol)) = Ok NaN)
  /\ ((0 < n)%Z -> exists h, 0 < h /\ jumelet c n Sd (iribarren g0 h T (1 / cot)) (rs / 1025 - 1) D h
        /\ value (calculate_significant_wave_height_Hs (Fin T) (Fin N) (Fin cot) (Fin rs) (Fin Sd) (Fin D) m50 (Fin c) (Fin g0) (Fin s) 1 (Fin tol)) = Ok (Fin h)).
Proof.
  intros HT Hcot Hrs HS HD Hc Hs h0. pose proof PI_RGT_0. pose proof g0_pos.
  assert (Hh : 0 < h0) by (unfold h0; rpos).
  destruct (Rround_nearest (plunging_fraction (iribarren g0 h0 T (1 / cot)) * N)) as (n & En & Ln). exists n. split; [exact Ln|].
  destruct (step_count T N cot rs Sd D c HT Hcot Hrs HS HD Hc n _ En) as (A & _ & C). split.
  - intros Hn k. specialize (A Hn).
    unfold calculate_significant_wave_height_Hs. rewrite usage_fin, bind_ret_l. rewrite init_fin by assumption. fold h0. rewrite Delta_fin by lra.
    rewrite !iribarren_fin by (assumption || lra). cbn [wave_height_loop]. change (ngt PInf (Fin tol)) with true. cbv iota zeta. rewrite !A.
    assert (G : forall st ksi c0 d, wave_height_loop st (Fin T) (Fin cot) (Fin tol) k NaN (nabs (NaN - d)%num) ksi (Some c0) = Some c0) by (intros; destruct k; reflexivity).
    rewrite G. mval. rewrite checks_ju. mval. reflexivity.
  - intros Hn. destruct (C Hn) as (h & Ph & E & J). exists h. split; [assumption|]. split; [exact J|].
    unfold calculate_significant_wave_height_Hs. rewrite usage_fin, bind_ret_l. rewrite init_fin by assumption. fold h0. rewrite Delta_fin by lra.
    rewrite !iribarren_fin by (assumption || lra). cbn [wave_height_loop]. change (ngt PInf (Fin tol)) with true. cbv iota zeta. rewrite !E.
    match goal with |- context [if ?b then _ else _] => destruct b end; mval; rewrite checks_ju; mval; reflexivity.
Qed.

(** With the default start the search fails on every slope steeper than 1 in 3.3, whatever the other arguments; on the
    slopes from 1 in 3.5 to 1 in 30 its first pass gives a wave height. *)
Theorem C46_default_start :
  forall T N cot rs Sd D c m50 tol, 0 < T -> 250 <= N -> 1025 < rs -> 0 < Sd -> 0 < D -> 0 < c ->
    (0 < cot <= 3.3 -> forall k,
       value (calculate_significant_wave_height_Hs (Fin T) (Fin N) (Fin cot) (Fin rs) (Fin Sd) (Fin D) m50 (Fin c) (Fin g0) smm10_init_default (S k) (Fin tol)) = Ok NaN)
    /\ (3.5 <= cot <= 30 -> exists n h, nearest_whole n (plunging_fraction (1 / (cot * sqrt 0.03)) * N) /\ (0 < n)%Z /\ 0 < h
        /\ jumelet c n Sd (iribarren g0 h T (1 / cot)) (rs / 1025 - 1) D h
        /\ value (calculate_significant_wave_height_Hs (Fin T) (Fin N) (Fin cot) (Fin rs) (Fin Sd) (Fin D) m50 (Fin c) (Fin g0) smm10_init_default 1 (Fin tol)) = Ok (Fin h)).
Proof.
  intros T N cot rs Sd D c m50 tol HT HN Hrs HS HD Hc. unfold smm10_init_default. split; intros Hcot.
  - destruct (one_step T N cot rs Sd D c 0.03 m50 tol) as (n & Ln & A & _); try lra. intros k. apply A. clear A.
    destruct (start_iribarren T cot) as [Px Ex]; [lra..|]. cbv zeta in Px, Ex. set (x := iribarren _ _ _ _) in *. clearbody x.
    assert (Lx : 1.74 < x).
    { apply Rnot_le_lt. intros Lx. assert (x * cot <= 1.74 * 3.3) by (apply Rmult_le_compat; lra). assert (0 <= x * cot) by (apply Rmult_le_pos; lra).
      assert ((x * cot) ^ 2 <= (1.74 * 3.3) ^ 2) by (apply pow_incr; lra). lra. }
    assert (F : plunging_fraction x <= -0.07). { unfold plunging_fraction. nra. }
    assert (Fn : plunging_fraction x * N <= -0.07 * 250) by nra.
    unfold nearest_whole in Ln. pose proof (Rle_abs (IZR n - plunging_fraction x * N)). apply lt_IZR. lra.
  - destruct (one_step T N cot rs Sd D c 0.03 m50 tol) as (n & Ln & _ & A); try lra.
    destruct (start_iribarren T cot) as [Px Ex]; [lra..|]. cbv zeta in Px, Ex. set (x := iribarren _ _ _ _) in *.
    assert (X : x = 1 / (cot * sqrt 0.03)).
    { assert (Q : sqrt 0.03 ^ 2 = 0.03) by (rewrite pow2_sqrt; lra). assert (0 < sqrt 0.03) by (apply sqrt_lt_R0; lra). assert (0 < cot * sqrt 0.03) by (apply Rmult_lt_0_compat; lra).
      assert (Z : x * (cot * sqrt 0.03) = 1).
      { apply Rsqr_inj; [apply Rmult_le_pos; lra|lra|]. unfold Rsqr. replace (x * (cot * sqrt 0.03) * (x * (cot * sqrt 0.03))) with (sqrt 0.03 ^ 2 * (x * cot) ^ 2) by ring. rewrite Q. lra. }
      apply (Rmult_eq_reg_r (cot * sqrt 0.03)); [|lra]. rewrite Z. field. lra. }
    rewrite <- X. clear X. clearbody x.
    assert (Lx : x < 1.66).
    { apply Rnot_le_lt. intros Lx. assert (1.66 * 3.5 <= x * cot) by (apply Rmult_le_compat; lra).
      assert ((1.66 * 3.5) ^ 2 <= (x * cot) ^ 2) by (apply pow_incr; lra). lra. }
    assert (Ux : 0.19 < x).
    { apply Rnot_le_lt. intros U. assert (x * cot <= 0.19 * 30) by (apply Rmult_le_compat; lra). assert (0 <= x * cot) by (apply Rmult_le_pos; lra).
      assert ((x * cot) ^ 2 <= (0.19 * 30) ^ 2) by (apply pow_incr; lra). lra. }
    assert (F : 0.04 <= plunging_fraction x). { unfold plunging_fraction. nra. }
    assert (Fn : 0.04 * 250 <= plunging_fraction x * N) by nra.
    assert (Pn : (0 < n)%Z). { unfold nearest_whole in Ln. rewrite Rabs_minus_sym in Ln. pose proof (Rle_abs (plunging_fraction x * N - IZR n)). apply lt_IZR. lra. }
    destruct (A Pn) as (h & Ph & J & V). exists n, h. auto.
Qed.

(** So the search misses solutions that are there: on a slope of 1 in 3 the other two functions agree on a stone and a
    damage for a wave with Iribarren number 1, and only a steeper start finds that wave. *)
Theorem C46_search_finds_solution_refuted :
  exists H D, 0 < H /\ 0 < D
    /\ value (calculate_nominal_rock_diameter_Dn50 (Fin H) (Fin 6) (Fin 1000) (Fin 3) (Fin 2650) (Fin 2) c_pl_default) = Ok (Fin D)
    /\ value (calculate_damage_number_S (Fin H) (Fin 6) (Fin 1000) (Fin 3) (Fin 2650) (Fin D) NaN c_pl_default (Fin 1025)) = Ok (Fin 2)
    /\ (forall tol, 0 <= tol -> value (calculate_significant_wave_height_Hs (Fin 6) (Fin 1000) (Fin 3) (Fin 2650) (Fin 2) (Fin D) NaN c_pl_default (Fin g0) (Fin (1 / 9)) 1000 (Fin tol)) = Ok (Fin H))
    /\ (forall tol, value (calculate_significant_wave_height_Hs (Fin 6) (Fin 1000) (Fin 3) (Fin 2650) (Fin 2) (Fin D) NaN c_pl_default (Fin g0) smm10_init_default 1000 (Fin tol)) = Ok NaN).
Proof.
  pose (H := 1 / 9 * 6 ^ 2 * g0 / (2 * PI)). pose proof PI_RGT_0. pose proof g0_pos.
  assert (HH : 0 < H) by (unfold H; rpos).
  assert (X1 : iribarren g0 H 6 (1 / 3) = 1).
  { unfold iribarren, steepness, H. replace (2 * PI * (1 / 9 * 6 ^ 2 * g0 / (2 * PI)) / (g0 * 6 ^ 2)) with ((1 / 3) * (1 / 3)) by (field; lra).
    rewrite sqrt_square by lra. field. }
  destruct (C46_damage_and_diameter_exist 4.3 1000 1 (2650 / 1025 - 1) H) as [_ E]; try lra; try lia.
  destruct (E 2) as (D & HD & J); [lra|]. exists H, D. split; [assumption|]. split; [assumption|].
  destruct (C46_functions_agree_with_relation H 6 1000 3 2650) as (n & Ln & F); try lra.
  rewrite X1 in *. unfold plunging_fraction, nearest_whole in Ln.
  replace ((-(1.7) * 1 ^ 2 + 3.2 * 1 - 0.5) * 1000) with (IZR 1000) in Ln by lra.
  assert (n = 1000%Z) by (apply IZR_close; lra). subst n.
  destruct (F D 4.3 2 NaN) as [F1 F2]; try lra; try lia; try assumption.
  split; [exact F2|]. split; [exact F1|]. split.
  - intros tol Htol. unfold H. apply (C46_wave_height_fixed_point 6 1000 3 2650 2 D 4.3 (1/9) NaN 999 tol 1000); try lra; try lia; fold H; rewrite X1.
    + unfold plunging_fraction. rewrite Rabs_pos_eq; lra.
    + exact J.
  - intros tol. apply (C46_default_start 6 1000 3 2650 2 D 4.3 NaN tol); lra.
Qed.
