(** Property C88: what the answers come to for ever higher crests, longer storms
    and longer waves. *)
From Coq Require Import Reals Lra List Bool String Psatz.
From Verif.Lib Require Import Num Monad RTac NTac.
From Verif.Spec Require Import Waves Taw Rock Overtopping Transmission Dispersion FarOut.
From Verif.Model Require Import CoreUtility CorePhysics.
From Verif.Model Require RunupTAW2002 OvertoppingTAW2002 OvertoppingEurotop2007 OvertoppingEurotop2018 DeRidder2024 VanGent2025 VanGent2021Caisson VanGent2023 VanderMeer1988 VanderMeer1988Modified.
From Verif.Proofs Require Import Core Taw FarOut Dispersion.
From Verif.Props Require RunupTAW OvertoppingTAW OvertoppingEurotop07 OvertoppingEurotop18 OvertoppingDeRidder24 OvertoppingVanGent25 OvertoppingCaisson TransVanGent RockVdM.
Import ListNotations.
Open Scope R_scope.

(** ** High crests: no water passes *)

Lemma rough_pos gf gb xi : 0 < gf <= 1 -> 0 < gb <= 1 -> 0 < xi -> 0 < taw_roughness gf gb xi.
Proof.
  intros. unfold taw_roughness. destruct (Rle_dec 1.8 (gb * xi)); [|lra]. destruct (Rle_dec (gb * xi) 10); [|lra].
  assert (1.8 <= xi) by nra. assert (0 <= (xi - 1.8) / 8.2) by lra. nra.
Qed.
Lemma unit_pos g H : 0 < g -> 0 < H -> 0 < q_unit g H.
Proof. intros. unfold q_unit. apply sqrt_lt_R0. apply Rmult_lt_0_compat; [assumption|apply pow_lt; assumption]. Qed.

Theorem C88_taw2002 : forall H T cot gbeta gb gf gv sigma g bf,
  0 < H -> 0 < T -> 0 < cot -> 0 < g -> (bf = true \/ sigma = 0) -> -7 < sigma -> 0 < gf <= 1 -> 0 < gb <= 1 -> 0 < gbeta -> 0 < gv ->
  comes_to (fun Rc => number_of_two (OvertoppingTAW2002.calculate_overtopping_discharge_q (Fin H) (Fin T) (Fin Rc) (Fin cot) NaN NaN NaN #0 #0 (Fin gbeta) (Fin gb) (Fin gf) (Fin gv) (Fin sigma) (Fin g) bf)) 0.
Proof.
  intros H T cot gbeta gb gf gv sigma g bf HH HT Hc Hg Hs Hs7 Hf Hb Hbeta Hv.
  destruct (OvertoppingTAW.taw_coefs_exist bf sigma Hs) as (c1 & c3 & HC). assert (H3 : 0 < c3) by (inversion HC; subst; lra).
  pose proof (iribarren_pos g0 H T (1 / cot) g0_pos HH HT ltac:(rpos)) as HX. set (xi := iribarren g0 H T (1 / cot)) in *.
  pose proof (rough_pos gf gb xi Hf Hb HX) as Hr. set (f := taw_roughness gf gb xi) in *.
  pose proof (unit_pos g H Hg HH) as HU.
  apply (vanishes _ (0.2 * q_unit g H) (c3 / (H * (f * gbeta))) 0 0); [rpos|rpos|]. intros Rc HR.
  destruct (OvertoppingTAW.discharge_given H T Rc cot gbeta gb gf gv sigma g bf c1 c3 HH HT Hc Hg HC Hf Hb Hbeta Hv) as (reached & E).
  unfold OvertoppingTAW.discharge in E. unfold number_of_two. rewrite E. fold xi.
  eexists _, (c3 * (Rc / H) / (f * gbeta)). split; [reflexivity|]. split.
  - unfold taw_q. cbv zeta. fold f. split.
    + apply Rmult_le_pos; [|lra]. apply Rmin_glb.
      * unfold taw_q_slope. pose proof (exp_pos (- (c1 * (Rc / H) / (xi * gb * f * gbeta * gv)))). assert (0 < sqrt (1 / cot)) by (apply sqrt_lt_R0; rpos). left. rpos.
      * unfold taw_q_max. pose proof (exp_pos (- (c3 * (Rc / H) / (f * gbeta)))). lra.
    + pose proof (Rmin_r (taw_q_slope c1 (1 / cot) gb f gbeta gv xi (Rc / H)) (taw_q_max c3 f gbeta (Rc / H))) as M.
      unfold taw_q_max in M at 2. nra.
  - right. field. repeat split; lra.
Qed.

Theorem C88_eurotop2007 : forall H T cot gf gbeta c2 c3 k2 k3 g (beta gbeta' : num) bf,
  0 < H -> 0 < T -> 0 < cot -> 0 < g -> 0 < gf <= 1 -> 0 < gbeta -> 0 < k2 -> 0 < k3 -> eurotop07_coefficients c2 c3 bf k2 k3 ->
  known_or (OvertoppingEurotop07.runup_angle_factor beta) gbeta' gbeta ->
  comes_to (fun Rc => number (OvertoppingEurotop2007.calculate_overtopping_discharge_q_rubble_mound (Fin H) (Fin T) (Fin Rc) beta gbeta' (Fin gf) (Fin cot) (Fin c2) (Fin c3) bf (Fin g))) 0.
Proof.
  intros H T cot gf gbeta c2 c3 k2 k3 g beta gbeta' bf HH HT Hc Hg Hf Hb H2 H3 HC HB.
  pose proof (iribarren_pos g0 H T (1 / cot) g0_pos HH HT ltac:(rpos)) as HX.
  pose proof (rough_pos gf 1 (iribarren g0 H T (1 / cot)) Hf ltac:(lra) HX) as Hr. set (f := taw_roughness gf 1 (iribarren g0 H T (1 / cot))) in *.
  pose proof (unit_pos g H Hg HH) as HU.
  apply (vanishes _ (k2 * q_unit g H) (k3 / (H * (f * gbeta))) 0 0); [rpos|rpos|]. intros Rc HR. unfold number.
  rewrite (OvertoppingEurotop07.C19_discharge H T Rc cot gf gbeta c2 c3 k2 k3 g beta gbeta' bf) by assumption. fold f.
  eexists _, (k3 * (Rc / H) / (f * gbeta)). split; [reflexivity|]. split; [|right; field; repeat split; lra].
  pose proof (exp_pos (- (k3 * (Rc / H) / (f * gbeta)))). split; [left; rpos|right; ring].
Qed.

Theorem C88_eurotop2018_mound : forall H T B db cot L gf gbeta c2 c3 k2 k3 g (cot' cd cu beta gbeta' : num) bf,
  0 < H -> 0 < T -> 0 < cot -> 0 < gf <= 1 -> 0 < gbeta -> 0 < k2 -> 0 < k3 -> 0 < g ->
  OvertoppingEurotop18.eurotop_max_coefficients c2 c3 bf k2 k3 -> known_or (OvertoppingEurotop18.angle18 beta gf) gbeta' gbeta ->
  OvertoppingEurotop18.slope18 H T B db gf gbeta bf cot' cd cu cot L ->
  comes_to (fun Rc => number (OvertoppingEurotop2018.calculate_overtopping_discharge_q_rubble_mound (Fin H) (Fin T) (Fin Rc) beta gbeta' (Fin gf) (Fin B) (Fin db) cot' cd cu (Fin c2) (Fin c3) bf (Fin g))) 0.
Proof.
  intros H T B db cot L gf gbeta c2 c3 k2 k3 g cot' cd cu beta gbeta' bf HH HT Hc Hf Hb H2 H3 Hg HC HB HS.
  pose proof (iribarren_pos g0 H T (1 / cot) g0_pos HH HT ltac:(rpos)) as HX.
  pose proof (rough_pos gf 1 (iribarren g0 H T (1 / cot)) Hf ltac:(lra) HX) as Hr. set (f := taw_roughness gf 1 (iribarren g0 H T (1 / cot))) in *.
  pose proof (unit_pos g H Hg HH) as HU. set (k := k3 / (H * (f * gbeta * 1))). assert (Hk : 0 < k) by (unfold k; rpos).
  apply (vanishes _ (k2 * q_unit g H) k 0 (1 / k)); [rpos|exact Hk|]. intros Rc HR. unfold number. assert (0 < 1 / k) by rpos.
  rewrite (OvertoppingEurotop18.C18_mound_discharge H T B db cot L gf gbeta c2 c3 k2 k3 Rc g cot' cd cu beta gbeta' bf) by assumption. cbv zeta. fold f.
  destruct (Rle_dec 0 Rc); [|lra]. assert (E : k3 * (Rc / H) / (f * gbeta * 1) = k * Rc) by (unfold k; field; repeat split; lra).
  assert (1 <= k * Rc). { apply (Rmult_lt_compat_l k) in HR; [|exact Hk]. replace (k * (1 / k)) with 1 in HR by (field; lra). lra. }
  eexists _, (pow13 (k * Rc)). split; [reflexivity|]. unfold eurotop_q_max. rewrite E. split.
  - pose proof (exp_pos (- pow13 (k * Rc))). split; [left; rpos|right; ring].
  - unfold pow13. destruct (Rlt_dec 0 (k * Rc)); [|lra]. pose proof (power_above (k * Rc) 1.3 ltac:(lra) ltac:(lra)). lra.
Qed.

Theorem C88_deridder2024 : forall g H s HLF gf, 0 < g -> 0 < H -> 0 < s -> 0 < gf ->
  comes_to (fun Rc => number (DeRidder2024.calculate_overtopping_discharge_q_eq24 (Fin H) (Fin s) (Fin gf) (Fin Rc) (Fin g))) 0
  /\ comes_to (fun Rc => number (DeRidder2024.calculate_overtopping_discharge_q_eq26 (Fin H) (Fin s) (Fin HLF) (Fin gf) (Fin Rc) (Fin g))) 0.
Proof.
  intros g H s HLF gf Hg HH Hs Hf. pose proof (unit_pos g H Hg HH) as HU. split.
  - pose proof (Rpower_pos s 0.32). apply (vanishes _ (0.74 * q_unit g H) (8.51 * Rpower s 0.32 / (H * gf)) 0 0); [rpos|rpos|]. intros Rc HR. unfold number.
    rewrite OvertoppingDeRidder24.q24_value by assumption. eexists _, (8.51 * Rpower s 0.32 * (Rc / (H * gf))). split; [reflexivity|].
    split; [|right; field; repeat split; lra]. pose proof (exp_pos (- (8.51 * Rpower s 0.32 * (Rc / (H * gf))))). split; [left; rpos|right; ring].
  - pose proof (Rpower_pos s 0.3). apply (vanishes _ (0.5 * q_unit g H) (7.91 * Rpower s 0.3 / (H * gf)) (7.91 * Rpower s 0.3 / (H * gf) * (0.21 * HLF)) 0); [rpos|rpos|]. intros Rc HR. unfold number.
    rewrite OvertoppingDeRidder24.q26_value by assumption. eexists _, (7.91 * Rpower s 0.3 * ((Rc - 0.21 * HLF) / (H * gf))). split; [reflexivity|].
    split; [|right; field; repeat split; lra]. pose proof (exp_pos (- (7.91 * Rpower s 0.3 * ((Rc - 0.21 * HLF) / (H * gf))))). split; [left; rpos|right; ring].
Qed.

Theorem C88_vangent2025 : forall g H T cot gf gb gv gbe Hsw (Ac beta B db Dn : num),
  0 < g -> 0 < H -> 0 < T -> 0 < cot -> 0 < gf -> 0 < gb -> 0 < gv -> 0 < gbe ->
  comes_to (fun Rc => number_of_two (VanGent2025.calculate_overtopping_discharge_q (Fin H) (Fin Hsw) (Fin T) (Fin Rc) Ac (Fin cot) beta B db Dn (Fin gf) (Fin gb) (Fin gv) (Fin gbe) (Fin g) false false)) 0.
Proof.
  intros g H T cot gf gb gv gbe Hsw Ac beta B db Dn Hg HH HT Hc Hf Hb Hv He. pose proof (unit_pos g H Hg HH) as HU.
  pose proof (iribarren_pos g0 H T (1 / cot) g0_pos HH HT ltac:(rpos)) as HX. set (xi := iribarren g0 H T (1 / cot)) in *.
  set (gam := gf * gb * gv * gbe). assert (HG : 0 < gam) by (unfold gam; rpos). pose proof (Rpower_pos xi 0.24) as HP.
  apply (vanishes _ (0.8 / cot * q_unit g H) (2.5 / (H * (gam * Rpower xi 0.24))) (2.5 / (H * (gam * Rpower xi 0.24)) * (0.4 * Hsw)) 0); [rpos|rpos|]. intros Rc HR.
  destruct (OvertoppingVanGent25.C26_discharge g H T cot gf gb gv gbe Hsw Rc false Ac beta B db Dn Hg HH HT Hc Hf Hb Hv He) as (reached & E & _).
  unfold number_of_two. rewrite E. fold xi gam. cbv zeta. set (x := (Rc - 0.4 * Hsw) / H).
  eexists _, (2.5 * x / (gam * Rpower xi 0.24)). split; [reflexivity|]. split.
  - unfold vg25_discharge. split.
    + apply Rmult_le_pos; [|lra]. apply Rmin_glb; unfold vg25_general, vg25_maximum; left; apply Rmult_lt_0_compat; [rpos|apply exp_pos|rpos|apply exp_pos].
    + pose proof (Rmin_r (vg25_general cot xi gam x) (vg25_maximum cot xi gam x)) as M. unfold vg25_maximum in M at 2. nra.
  - right. unfold x. field. repeat split; lra.
Qed.

Theorem C88_caisson2021 : forall g H short crossing parapet c a b cb gp gb cs Hsw beta,
  0 < g -> 0 < H -> 0 < gb -> caisson_fitted (short || crossing) parapet c a b cb gp ->
  comes_to (fun Rc => number (VanGent2021Caisson.calculate_overtopping_discharge_q (Fin H) (Fin Rc) beta (Fin gb) (Fin Hsw) (Fin c) (Fin cs) short crossing parapet (Fin g))) 0.
Proof.
  intros g H short crossing parapet c a b cb gp gb cs Hsw beta Hg HH Hb HF. pose proof (unit_pos g H Hg HH) as HU.
  assert (HP : 0 < a /\ 0 < b /\ 0 < gp /\ (c = 1 \/ c = 1.3)) by (inversion HF; subst; lra). destruct HP as (Ha & Hbb & Hgp & Hcc).
  set (rise := OvertoppingCaisson.rise crossing cs Hsw). set (k := b / (gb * gp)). assert (Hk : 0 < k) by (unfold k; rpos).
  apply (vanishes _ (a * q_unit g H) (k / H) (k / H * rise) (rise + H)); [rpos|rpos|]. intros Rc HR.
  set (x := (Rc - rise) / H). assert (Hx : 1 <= x).
  { unfold x. apply (Rmult_le_reg_r H); [exact HH|]. replace ((Rc - rise) / H * H) with (Rc - rise) by (field; lra). lra. }
  assert (Y : exists y, to_power x y c /\ x <= y).
  { destruct Hcc as [-> | ->]; [exists x; split; [constructor; reflexivity|lra]|]. exists (Rpower x 1.3). split; [apply power_13; [lra|reflexivity]|apply power_above; lra]. }
  destruct Y as (y & Py & Ly).
  destruct (OvertoppingCaisson.C25_agree_with_relation g H short crossing parapet c a b cb gp gb cs Hsw beta Hg HH Hb HF) as (V & _).
  assert (E := proj2 (V Rc (a * exp (- (k * y)) * q_unit g H))). unfold number. rewrite E.
  - eexists _, (k * y). split; [reflexivity|]. split; [pose proof (exp_pos (- (k * y))); split; [left; rpos|right; ring]|].
    assert (k / H * Rc - k / H * rise = k * x) by (unfold x; field; lra). nra.
  - exists y. split; [exact Py|]. unfold k. field. repeat split; lra.
Qed.

(** Transmission (Van Gent et al., 2023) comes to the lower asymptote of the type
    of structure, which is not zero, and for ever deeper crests to the upper one. *)
Lemma tanh_far x : 0 <= x -> 0 <= 1 - tanh x <= 2 * exp (- (2 * x)).
Proof.
  intros. rewrite tanh_alt, exp_Ropp. assert (0 < exp (2 * x)) by apply exp_pos.
  assert (0 < / (exp (2 * x) + 1)) by (apply Rinv_0_lt_compat; lra). assert (/ (exp (2 * x) + 1) <= / exp (2 * x)) by (apply Rinv_le_contravar; lra).
  unfold Rdiv. lra.
Qed.
Theorem C88_transmission2023 : forall d s H T B, solves_dispersion d -> 0 < T -> 0 < H -> 0 < B ->
  comes_to (fun Rc => number (VanGent2023.calculate_wave_transmission_Kt d (Fin H) (Fin T) (Fin Rc) (Fin B) (bw_name s))) (bw_middle s - bw_swing s)
  /\ comes_to (fun depth => number (VanGent2023.calculate_wave_transmission_Kt d (Fin H) (Fin T) (Fin (- depth)) (Fin B) (bw_name s))) (bw_middle s + bw_swing s).
Proof.
  intros d s H T B Hd HT HH HB. destruct (TransVanGent.C32_formula d T Hd HT) as (k & Hk & D & E).
  assert (Hsw : 0 < bw_swing s < 1) by (destruct s; cbn; lra). set (c := 3.1 * Rpower (B / (2 * PI / k)) 0.75 + bw_shift s).
  assert (V : forall Rc, number (VanGent2023.calculate_wave_transmission_Kt d (Fin H) (Fin T) (Fin Rc) (Fin B) (bw_name s)) = Fin (bw_middle s - bw_swing s * tanh (Rc / H + c))).
  { intros Rc. unfold number. rewrite E by lra. unfold vangent2023, c. rewrite <- Rplus_assoc. f_equal; ring. }
  split.
  - apply (vanishes_to _ _ 2 (2 / H) (- 2 * c) (- c * H)); [lra|rpos|]. intros Rc HR. rewrite V.
    assert (P : 0 <= Rc / H + c). { apply (Rmult_le_reg_r H); [exact HH|]. replace ((Rc / H + c) * H) with (Rc + c * H) by (field; lra). lra. }
    eexists _, (2 * (Rc / H + c)). split; [reflexivity|]. split; [|right; field; lra].
    pose proof (tanh_far _ P). rewrite Rabs_right by nra. nra.
  - apply (vanishes_to _ _ 2 (2 / H) (2 * c) (c * H)); [lra|rpos|]. intros Rc HR. rewrite V.
    assert (P : 0 <= Rc / H - c). { apply (Rmult_le_reg_r H); [exact HH|]. replace ((Rc / H - c) * H) with (Rc - c * H) by (field; lra). lra. }
    eexists _, (2 * (Rc / H - c)). split; [reflexivity|]. split; [|right; field; lra].
    replace (- Rc / H + c) with (- (Rc / H - c)) by (field; lra). pose proof (tanh_far _ P).
    rewrite TransVanGent.tanh_neg. rewrite Rabs_left1 by nra. nra.
Qed.

(** ** Long storms: the damage of the formula of 1988 levels off, that of the
    modified formula does not. *)
Theorem C88_storm : forall H D T cot P rs rw cp cs r,
  0 < H -> 0 < D -> 0 < T -> 0 < cot -> 0 < P -> 0 < rw -> rw < rs -> 0 < cp -> 0 < cs -> 0 < r ->
  (exists S, 0 < S /\
     value (VanderMeer1988.calculate_damage_number_S (Fin H) (Fin (r * H)) (Fin T) (Fin 5000) (Fin cot) (Fin P) (Fin rs) (Fin D) NaN (Fin cp) (Fin cs) (Fin rw)) = Ok (Fin S)
     /\ comes_to (fun N => number (VanderMeer1988.calculate_damage_number_S (Fin H) (Fin (r * H)) (Fin T) (Fin N) (Fin cot) (Fin P) (Fin rs) (Fin D) NaN (Fin cp) (Fin cs) (Fin rw))) (1.3 * S))
  /\ passes_all_bounds (fun N => number (VanderMeer1988Modified.calculate_damage_number_S (Fin H) (Fin (r * H)) (Fin T) (Fin N) (Fin cot) (Fin P) (Fin rs) (Fin D) NaN (Fin cp) (Fin cs) (Fin rw))).
Proof.
  intros H D T cot P rs rw cp cs r HH HD HT Hc HP Hrw Hrs Hcp Hcs Hr.
  destruct (RockVdM.C43_damage_total H D T 1000 cot P rs rw cp cs r) as (S0 & HS0 & E); try assumption; [lra|].
  set (d := S0 / vdm_storm 1000) in *. assert (Hd : 0 < d) by (unfold d; pose proof (RockVdM.storm_pos 1000 ltac:(lra)); rpos).
  assert (V : forall N, 0 < N -> value (VanderMeer1988.calculate_damage_number_S (Fin H) (Fin (r * H)) (Fin T) (Fin N) (Fin cot) (Fin P) (Fin rs) (Fin D) NaN (Fin cp) (Fin cs) (Fin rw)) = Ok (Fin (d * vdm_storm N))).
  { intros N HN. pose proof (RockVdM.storm_pos N HN) as Q. apply (RockVdM.damage88 H D T N cot P rs rw cp cs r NaN); try assumption; [rpos|].
    replace (d * vdm_storm N / vdm_storm N) with d by (field; lra). exact E. }
  split.
  - exists (d * sqrt 5000). assert (0 < sqrt 5000) by (apply sqrt_lt_R0; lra). split; [rpos|]. split.
    + rewrite V by lra. do 2 f_equal. unfold vdm_storm. destruct (Rlt_dec 5000 1000); [lra|]. destruct (Rle_dec 5000 5000); [reflexivity|lra].
    + apply (vanishes_to _ _ (1.3 * (d * sqrt 5000)) 0.00031 0 5000); [rpos|lra|]. intros N HN. unfold number. rewrite V by lra.
      eexists _, (0.00031 * N). split; [reflexivity|]. split; [|lra].
      unfold vdm_storm. destruct (Rlt_dec N 1000); [lra|]. destruct (Rle_dec N 5000); [lra|].
      replace (d * (1.3 * (1 - exp (- (0.00031) * N)) * sqrt 5000) - 1.3 * (d * sqrt 5000)) with (- (1.3 * (d * sqrt 5000) * exp (- (0.00031) * N))) by ring.
      rewrite Rabs_Ropp, Rabs_right; [right; do 2 f_equal; lra|]. left. pose proof (exp_pos (- (0.00031) * N)). rpos.
  - intros K. exists (Rmax 1 ((K / d) * (K / d))). intros N HN. pose proof (Rmax_l 1 ((K / d) * (K / d))). pose proof (Rmax_r 1 ((K / d) * (K / d))).
    assert (HN0 : 0 < N) by lra. assert (Hq : 0 < sqrt N) by (apply sqrt_lt_R0, HN0).
    exists (d * sqrt N). split.
    + unfold number. rewrite (RockVdM.damageM H D T N cot P rs rw cp cs r NaN HH HD HT HN0 Hc HP Hrw Hrs Hcp Hcs Hr (d * sqrt N)); [reflexivity|rpos|].
      replace (d * sqrt N / sqrt N) with d by (field; lra). exact E.
    + assert (L : K / d < sqrt N).
      { destruct (Rlt_le_dec (K / d) 0); [lra|]. rewrite <- (sqrt_square (K / d)) by assumption. apply sqrt_lt_1; nra. }
      apply (Rmult_lt_compat_l d) in L; [|exact Hd]. replace (d * (K / d)) with K in L by (field; lra). exact L.
Qed.

(** ** Long waves: the run-up of TAW (2002) comes to 4.3 wave heights, less for
    roughness and obliqueness. *)
Theorem C88_runup : forall H gbeta gb gf cot, 0 < H -> 0 < gbeta -> 0 < gf < 1 -> 0.6 <= gb <= 1 -> 0 < cot ->
  comes_to (fun T => number_of_two (RunupTAW2002.calculate_wave_runup_height_z2p (Fin H) (Fin T) NaN (Fin gbeta) (Fin gb) (Fin gf) #0 #0 (Fin cot) NaN NaN
    RunupTAW2002.c1_default RunupTAW2002.c2_default RunupTAW2002.c3_default RunupTAW2002.c4_default false)) (4.3 * gf * gbeta * H).
Proof.
  intros H gbeta gb gf cot HH Hbeta Hf Hb Hc e He.
  pose proof (iribarren_pos g0 H 1 (1 / cot) g0_pos HH ltac:(lra) ltac:(rpos)) as Hk. set (k := iribarren g0 H 1 (1 / cot)) in *.
  set (c := 1.6 * gf * gbeta * H). assert (HC : 0 < c) by (unfold c; rpos).
  set (big := Rmax 20 ((c / e) * (c / e))). pose proof (Rmax_l 20 ((c / e) * (c / e))) as B1. pose proof (Rmax_r 20 ((c / e) * (c / e))) as B2. fold big in B1, B2.
  exists (big / k). intros T HT. assert (HT0 : 0 < T) by (assert (0 < big / k) by rpos; lra).
  assert (EX : iribarren g0 H T (1 / cot) = k * T).
  { unfold k, iribarren, steepness. replace (2 * PI * H / (g0 * T ^ 2)) with (2 * PI * H / (g0 * 1 ^ 2) * (/ T * / T)) by (pose proof g0_pos; field; lra).
    assert (0 < / T) by (apply Rinv_0_lt_compat; lra). assert (P : 0 < 2 * PI * H / (g0 * 1 ^ 2)) by (pose proof g0_pos; pose proof PI_RGT_0; rpos).
    rewrite sqrt_mult by nra. rewrite sqrt_square by lra. pose proof (sqrt_lt_R0 _ P). field. repeat split; lra. }
  assert (X : big < k * T). { apply (Rmult_lt_compat_l k) in HT; [|exact Hk]. replace (k * (big / k)) with big in HT by (field; lra). exact HT. }
  destruct (RunupTAW.C11_smaller_of_two H T cot gb gf gbeta 1.75 4.3 1.6 1 NaN #0 #0 NaN HH HT0 Hc) as (reached & _ & E & _).
  rewrite EX in E. set (xi := k * T) in *. unfold number_of_two.
  change RunupTAW2002.c1_default with (Fin 1.75). change RunupTAW2002.c2_default with (Fin 4.3).
  change RunupTAW2002.c3_default with (Fin 1.6). change RunupTAW2002.c4_default with (Fin 1). rewrite E.
  eexists. split; [reflexivity|].
  assert (ER : taw_roughness gf gb xi = gf).
  { unfold taw_roughness. destruct (Rle_dec 1.8 (gb * xi)); [|reflexivity]. destruct (Rle_dec (gb * xi) 10); [|reflexivity]. exfalso. nra. }
  rewrite ER. assert (HS : 0 < sqrt xi) by (apply sqrt_lt_R0; lra). assert (HQ : 0 < 1.6 / sqrt xi) by rpos.
  rewrite Rmin_right.
  - unfold taw_max_runup. replace (1 * gf * gbeta * (4.3 - 1.6 / sqrt xi) * H - 4.3 * gf * gbeta * H) with (- (c / sqrt xi)) by (unfold c; field; lra).
    rewrite Rabs_Ropp, Rabs_right by (left; rpos).
    assert (L : c / e < sqrt xi). { assert (0 < c / e) by rpos. rewrite <- (sqrt_square (c / e)) by lra. apply sqrt_lt_1; nra. }
    apply (Rmult_lt_reg_r (sqrt xi)); [exact HS|]. replace (c / sqrt xi * sqrt xi) with c by (field; lra).
    apply (Rmult_lt_compat_l e) in L; [|exact He]. replace (e * (c / e)) with c in L by (field; lra). exact L.
  - unfold taw_max_runup, taw_slope_runup. assert (0 < gf * gbeta) by rpos. assert (4.3 <= 1.75 * gb * xi) by nra. nra.
Qed.

(** An answer comes to one number at most, and not while passing all bounds. *)
Theorem C88_one_limit : forall f l l', comes_to f l -> comes_to f l' -> l = l'.
Proof. exact one_limit. Qed.
Theorem C88_levels_or_grows : forall f l, comes_to f l -> ~ passes_all_bounds f.
Proof. exact both_not. Qed.

(** ** Examples *)

(** The two notions tell answers apart: [x] passes all bounds and comes to no
    number, [1/x] comes to 0, and an exception far out is neither. *)
Example C88_ex_notions :
  passes_all_bounds (fun x => Fin x) /\ (forall l, ~ comes_to (fun x => Fin x) l)
  /\ comes_to (fun x => Fin (1 / x)) 0 /\ ~ comes_to (fun x => Fin (1 / x)) 1
  /\ (forall l, ~ comes_to (fun _ => NaN) l) /\ ~ passes_all_bounds (fun _ => PInf).
Proof.
  assert (P : passes_all_bounds (fun x => Fin x)) by (intros K; exists K; intros x Hx; exists x; split; [reflexivity|exact Hx]).
  assert (Z : comes_to (fun x => Fin (1 / x)) 0).
  { intros e He. exists (1 / e). intros x Hx. assert (0 < 1 / e) by rpos. exists (1 / x). split; [reflexivity|].
    rewrite Rminus_0_r, Rabs_right by (left; rpos). apply (Rmult_lt_reg_r (x / e)); [rpos|]. replace (1 / x * (x / e)) with (1 / e) by (field; lra).
    replace (e * (x / e)) with x by (field; lra). exact Hx. }
  split; [exact P|]. split; [intros l C; exact (C88_levels_or_grows _ _ C P)|]. split; [exact Z|]. split; [intros C; pose proof (C88_one_limit _ _ _ Z C); lra|].
  split; [intros l C; destruct (C 1 ltac:(lra)) as (a & A)|intros C; destruct (C 1) as (a & A)]; destruct (A (a + 1) ltac:(lra)) as (w & E & _); discriminate E.
Qed.

(** Waves of 2 m on a rough slope (factor 0.5) of 1:3 run up to at most
    4.3 m however long they are. *)
Example C88_ex_runup :
  comes_to (fun T => number_of_two (RunupTAW2002.calculate_wave_runup_height_z2p (Fin 2) (Fin T) NaN (Fin 1) (Fin 1) (Fin 0.5) #0 #0 (Fin 3) NaN NaN
    RunupTAW2002.c1_default RunupTAW2002.c2_default RunupTAW2002.c3_default RunupTAW2002.c4_default false)) 4.3.
Proof. replace 4.3 with (4.3 * 0.5 * 1 * 2) by lra. apply C88_runup; lra. Qed.

(** Some 3 % of the wave height passes an impermeable breakwater whatever its
    height, and 69 % a perforated one. *)
Example C88_ex_transmission :
  comes_to (fun Rc => number (VanGent2023.calculate_wave_transmission_Kt exact_disper (Fin 2) (Fin 8) (Fin Rc) (Fin 10) "impermeable")) 0.03
  /\ comes_to (fun Rc => number (VanGent2023.calculate_wave_transmission_Kt exact_disper (Fin 2) (Fin 8) (Fin Rc) (Fin 10) "perforated")) 0.69
  /\ comes_to (fun depth => number (VanGent2023.calculate_wave_transmission_Kt exact_disper (Fin 2) (Fin 8) (Fin (- depth)) (Fin 10) "impermeable")) 0.97.
Proof.
  pose proof (C88_transmission2023 exact_disper Impermeable 2 8 10 exact_disper_solves ltac:(lra) ltac:(lra) ltac:(lra)) as (A & B).
  pose proof (C88_transmission2023 exact_disper Perforated 2 8 10 exact_disper_solves ltac:(lra) ltac:(lra) ltac:(lra)) as (C & _).
  cbn [bw_name bw_middle bw_swing] in A, B, C.
  replace 0.03 with (0.5 - 0.47) by lra. replace 0.69 with (0.82 - 0.13) by lra. replace 0.97 with (0.5 + 0.47) by lra. auto.
Qed.

(** Waves of 2 m on rock of 1 m: the damage of 1988 levels off, the modified one
    comes to no number. *)
Example C88_ex_storm :
  (exists S, comes_to (fun N => number (VanderMeer1988.calculate_damage_number_S (Fin 2) (Fin (1.4 * 2)) (Fin 8) (Fin N) (Fin 3) (Fin 0.4) (Fin 2650) (Fin 1) NaN (Fin 6.2) (Fin 1) (Fin 1025))) S)
  /\ forall S, ~ comes_to (fun N => number (VanderMeer1988Modified.calculate_damage_number_S (Fin 2) (Fin (1.4 * 2)) (Fin 8) (Fin N) (Fin 3) (Fin 0.4) (Fin 2650) (Fin 1) NaN (Fin 6.2) (Fin 1) (Fin 1025))) S.
Proof.
  destruct (C88_storm 2 1 8 3 0.4 2650 1025 6.2 1 1.4) as ((S & _ & _ & C) & G); try lra. split; [exists (1.3 * S); exact C|].
  intros S' C'. exact (C88_levels_or_grows _ _ C' G).
Qed.

(** A crest above which less than a litre per second and kilometre passes. *)
Example C88_ex_crest :
  exists Rc0, forall Rc, Rc0 < Rc -> exists q,
    number_of_two (OvertoppingTAW2002.calculate_overtopping_discharge_q (Fin 2) (Fin 6) (Fin Rc) (Fin 3) NaN NaN NaN #0 #0 (Fin 1) (Fin 0.8) (Fin 0.6) (Fin 1) (Fin 0) (Fin 9.81) true) = Fin q
    /\ q < 0.000001.
Proof.
  destruct (C88_taw2002 2 6 3 1 0.8 0.6 1 0 9.81 true ltac:(lra) ltac:(lra) ltac:(lra) ltac:(lra) (or_introl eq_refl) ltac:(lra) ltac:(lra) ltac:(lra) ltac:(lra) ltac:(lra)
    0.000001 ltac:(lra)) as (B & F).
  exists B. intros Rc HR. destruct (F Rc HR) as (q & E & L). exists q. split; [exact E|]. apply Rabs_def2 in L. lra.
Qed.
