(** Property C78, continued: concrete units and rock by the formula of Hudson, cubes, Xblocs. *)
From Coq Require Import Reals Lra Lia List Bool String ZArith.
From Verif.Lib Require Import Num Monad RTac NTac.
From Verif.Spec Require Import Waves Rock Armour Response.
From Verif.Model Require Import CoreUtility CorePhysics Hudson1959 HudsonUnits Cubes Xbloc.
From Verif.Proofs Require Import Core CheckTac VdM Stones.
From Verif.Props Require Hudson RockVdM RockScaravaglione RockJumelet ConcreteUnits.
From Verif.Props Require Import ResponseVanGent ResponseArmour.
Open Scope R_scope.

(** Denser material: less mass, and less volume, although each cubic metre weighs more. *)
Lemma mass_density rs rs' rw : 0 < rw -> rw < rs' <= rs ->
  ln rs - 3 * ln (rs / rw - 1) <= ln rs' - 3 * ln (rs' / rw - 1) /\ (rs' < rs -> ln rs - 3 * ln (rs / rw - 1) < ln rs' - 3 * ln (rs' / rw - 1)).
Proof.
  intros W L. destruct (buoyant_le rs rs' rw W L) as [B B']. destruct (ln_le2 _ _ B) as [C C'].
  assert (Q : ln rs - ln (rs / rw - 1) <= ln rs' - ln (rs' / rw - 1)).
  { assert (E : forall x, rw < x -> ln x - ln (x / rw - 1) = ln rw + ln (1 + / (x / rw - 1))).
    { intros x X. pose proof (buoyant_pos x rw W X) as P. unfold buoyant in P. assert (0 < / (x / rw - 1)) by rpos. rewrite <- ln_mult by lra. assert (ln x = ln (rw * (1 + / (x / rw - 1))) + ln (x / rw - 1)) as ->; [|lra].
      rewrite <- ln_mult by (try lra; apply Rmult_lt_0_compat; lra). f_equal. field. split; [lra|]. intros Z. assert (x / rw - 1 = (x - rw) / rw) by (field; lra). assert (x - rw > 0) by lra. lra. }
    rewrite !E by lra. apply Rplus_le_compat_l. apply ln_le. assert (0 < / (rs / rw - 1)) by (apply Rinv_0_lt_compat; lra). split; [lra|]. apply Rplus_le_compat_l. apply Rinv_le_contravar; lra. }
  split; [lra|]. intros K. specialize (B' K). specialize (C' B'). lra.
Qed.

(** ** Hudson *)
Definition mass_grows (mass : num -> num -> num -> num -> num -> num -> M num) : Prop :=
  forall H H' rw rs rs' KD KD' c c' al al',
    0 < H <= H' -> 0 < rw -> rw < rs' <= rs -> 0 < KD' <= KD -> 0 < c' <= c -> 0 < al <= al' ->
    grows (H < H' \/ rs' < rs \/ KD' < KD \/ c' < c \/ al < al')
      (value (mass (Fin H) (Fin rw) (Fin rs) (Fin KD) (Fin c) (Fin al))) (value (mass (Fin H') (Fin rw) (Fin rs') (Fin KD') (Fin c') (Fin al'))).
Lemma hudson_grows mass height : Hudson.implements_hudson mass height -> mass_grows mass.
Proof.
  intros (V & T & _) H H' rw rs rs' KD KD' c c' al al' HH Hw Hs HK Hc Ha.
  destruct (T H rw rs KD c al) as (m & Hm & R1); [lra..|]. destruct (T H' rw rs' KD' c' al') as (m' & Hm' & R2); [lra..|].
  destruct (V H rw rs KD c al m) as [E _]; try assumption; try lra. destruct (V H' rw rs' KD' c' al' m') as [E' _]; try assumption; try lra. rewrite E, E'.
  apply by_logs; [assumption..|]. unfold hudson in R1, R2. destruct (buoyant_le rs rs' rw Hw Hs) as [B _]. destruct (mass_density rs rs' rw Hw Hs) as [M1 M2].
  rewrite R1, R2. clear R1 R2 E E' V T. set (d := rs / rw - 1) in *. set (d' := rs' / rw - 1) in *. clearbody d d'. assert (0 < rs) by lra. assert (0 < rs') by lra. assert (0 < al) by lra. assert (0 < al') by lra. assert (0 < H) by lra. assert (0 < H') by lra. assert (0 < KD) by lra. assert (0 < KD') by lra. assert (0 < c) by lra. assert (0 < c') by lra. assert (0 < d) by lra. assert (0 < d') by lra.
  ln_push. simpl INR. destruct (ln_le2 _ _ HH) as [A1 A2]. destruct (ln_le2 _ _ HK) as [A3 A4]. destruct (ln_le2 _ _ Hc) as [A5 A6]. destruct (ln_le2 _ _ Ha) as [A7 A8].
  split; [lra|]. intros [K|[K|[K|[K|K]]]]; [specialize (A2 K)|specialize (M2 K)|specialize (A4 K)|specialize (A6 K)|specialize (A8 K)]; lra.
Qed.
Theorem C78_hudson :
  mass_grows (fun a b c d e f => ret (calculate_median_rock_mass_M50_no_damage a b c d e f))
  /\ mass_grows accropode_unit_mass_M /\ mass_grows accropode2_unit_mass_M /\ mass_grows core_loc_unit_mass_M
  /\ mass_grows cubes_unit_mass_M /\ mass_grows cubipod_unit_mass_M /\ mass_grows tetrapod_unit_mass_M.
Proof.
  exact (conj (hudson_grows _ _ Hudson.C38_rock) (conj (hudson_grows _ _ Hudson.C38_accropode) (conj (hudson_grows _ _ Hudson.C38_accropode2)
    (conj (hudson_grows _ _ Hudson.C38_core_loc) (conj (hudson_grows _ _ Hudson.C38_cubes) (conj (hudson_grows _ _ Hudson.C38_cubipod) (hudson_grows _ _ Hudson.C38_tetrapod))))))).
Qed.

(** ** Units with a fixed stability number *)
Lemma fixed_grows f f' H H' Ns Ns' rw rs rs' : 0 < f <= f' -> 0 < H <= H' -> 0 < Ns' <= Ns -> 0 < rw -> rw < rs' <= rs ->
  grows (f < f' \/ H < H' \/ Ns' < Ns \/ rs' < rs) (Ok (Fin (f * (rs * (H / (Ns * (rs / rw - 1))) ^ 3)))) (Ok (Fin (f' * (rs' * (H' / (Ns' * (rs' / rw - 1))) ^ 3)))).
Proof.
  intros Hf HH HN Hw Hs. destruct (buoyant_le rs rs' rw Hw Hs) as [B _]. destruct (mass_density rs rs' rw Hw Hs) as [M1 M2].
  set (d := rs / rw - 1) in *. set (d' := rs' / rw - 1) in *. clearbody d d'. assert (0 < f) by lra. assert (0 < f') by lra. assert (0 < rs) by lra. assert (0 < rs') by lra. assert (0 < H) by lra. assert (0 < H') by lra. assert (0 < Ns) by lra. assert (0 < Ns') by lra. assert (0 < d) by lra. assert (0 < d') by lra.
  assert (0 < H / (Ns * d)) by rpos. assert (0 < H' / (Ns' * d')) by rpos.
  apply by_logs; [rpos|rpos|]. ln_push. simpl INR. destruct (ln_le2 _ _ HH) as [A1 A2]. destruct (ln_le2 _ _ HN) as [A3 A4]. destruct (ln_le2 _ _ Hf) as [A5 A6].
  split; [lra|]. intros [K|[K|[K|K]]]; [specialize (A6 K)|specialize (A2 K)|specialize (A4 K)|specialize (M2 K)]; lra.
Qed.
(** Cubes in one layer. *)
Theorem C78_cubes_single_layer : forall H H' Ns Ns' rw rs rs',
  0 < H <= H' -> 0 < Ns' <= Ns -> 0 < rw -> rw < rs' <= rs ->
  grows (H < H' \/ Ns' < Ns \/ rs' < rs)
    (value (calculate_unit_mass_M_start_of_damage (Fin H) (Fin rw) (Fin rs) (Fin Ns))) (value (calculate_unit_mass_M_start_of_damage (Fin H') (Fin rw) (Fin rs') (Fin Ns')))
  /\ grows (H < H' \/ Ns' < Ns \/ rs' < rs)
    (value (calculate_unit_mass_M_failure (Fin H) (Fin rw) (Fin rs) (Fin Ns))) (value (calculate_unit_mass_M_failure (Fin H') (Fin rw) (Fin rs') (Fin Ns'))).
Proof.
  intros H H' Ns Ns' rw rs rs' HH HN Hw Hs.
  assert (G : grows (H < H' \/ Ns' < Ns \/ rs' < rs) (value (calculate_unit_mass_M_start_of_damage (Fin H) (Fin rw) (Fin rs) (Fin Ns))) (value (calculate_unit_mass_M_start_of_damage (Fin H') (Fin rw) (Fin rs') (Fin Ns')))).
  { rewrite !ConcreteUnits.fixed_mass_fin by lra. destruct (fixed_grows 1 1 H H' Ns Ns' rw rs rs') as [G1 G2]; [lra..|]. rewrite !Rmult_1_l in *. split; [exact G1|]. intros K. apply G2. tauto. }
  split; exact G.
Qed.
(** Xbloc and XblocPlus; [f] is the factor on the volume. *)
Definition unit_grows (V M : num -> num -> num -> num -> num) : Prop :=
  forall H H' rw rs rs' f f', 0 < H <= H' -> 0 < rw -> rw < rs' <= rs -> 0 < f <= f' ->
    grows (H < H' \/ rs' < rs \/ f < f') (Ok (V (Fin H) (Fin rw) (Fin rs) (Fin f))) (Ok (V (Fin H') (Fin rw) (Fin rs') (Fin f')))
    /\ grows (H < H' \/ rs' < rs \/ f < f') (Ok (M (Fin H) (Fin rw) (Fin rs) (Fin f))) (Ok (M (Fin H') (Fin rw) (Fin rs') (Fin f'))).
Lemma sized_unit_grows Ns Hv Hm V M : 0 < Ns -> ConcreteUnits.sizing_agrees Ns Hv Hm V M -> unit_grows V M.
Proof.
  intros PN A H H' rw rs rs' f f' HH Hw Hs Hf. destruct (A H rw rs f) as (v & m & Pv & Em & Sm & EV & EM & _); [lra..|].
  destruct (A H' rw rs' f') as (v' & m' & Pv' & Em' & Sm' & EV' & EM' & _); [lra..|]. rewrite EV, EV', EM, EM'. unfold fixed_Ns in *.
  destruct (fixed_grows f f' H H' Ns Ns rw rs rs') as [G1 G2]; [lra..|]. rewrite <- Sm, <- Sm' in *.
  destruct (ln_le2 rs' rs ltac:(lra)) as [R1 R2]. split; [|split; [exact G1|]; intros K; apply G2; tauto].
  apply by_logs; [assumption..|]. destruct G1 as (x & y & X & Y & L). injection X as <-. injection Y as <-. subst m m'.
  assert (Q : v * rs <= v' * rs') by lra. clear Sm Sm' EM EM'. assert (P0 : 0 < v * rs) by (apply Rmult_lt_0_compat; lra). apply (ln_le_mono _ _ P0) in Q. rewrite !ln_mult in Q by lra.
  split; [lra|]. intros K. assert (Z : v * rs < v' * rs') by (destruct (G2 ltac:(tauto)) as (x & y & X & Y & L'); injection X as <-; injection Y as <-; lra).
  apply ln_increasing in Z; [|exact P0]. rewrite !ln_mult in Z by lra. lra.
Qed.
Theorem C78_xbloc : unit_grows xbloc_unit_volume_V xbloc_unit_mass_M /\ unit_grows xblocplus_unit_volume_V xblocplus_unit_mass_M.
Proof. exact (conj (sized_unit_grows 2.77 _ _ _ _ ltac:(lra) ConcreteUnits.C42_xbloc_sizing) (sized_unit_grows 2.5 _ _ _ _ ltac:(lra) ConcreteUnits.C42_xblocplus_sizing)). Qed.

(** ** Cubes in two layers: higher or shorter waves, less damage, a longer storm, lighter concrete. *)
Theorem C78_cubes_double_layer : forall H H' T T' rw rs rs' N N' Nod Nod' cot cot',
  0 < H <= H' -> 0 < T' <= T -> 0 < rw -> rw < rs' <= rs -> 0 < N <= N' -> 0 < Nod' <= Nod ->
  grows (H < H' \/ T' < T \/ rs' < rs \/ N < N' \/ Nod' < Nod)
    (value (calculate_nominal_diameter_Dn_vanDerMeer1988 (Fin H) (Fin T) (Fin rw) (Fin rs) (Fin N) cot (Fin Nod)))
    (value (calculate_nominal_diameter_Dn_vanDerMeer1988 (Fin H') (Fin T') (Fin rw) (Fin rs') (Fin N') cot' (Fin Nod'))).
Proof.
  intros H H' T T' rw rs rs' N N' Nod Nod' cot cot' HH HT Hw Hs HN HNod.
  assert (V : forall h t r n nod c, 0 < h -> 0 < t -> rw < r -> 0 < n -> 0 < nod -> exists D, 0 < D
    /\ value (calculate_nominal_diameter_Dn_vanDerMeer1988 (Fin h) (Fin t) (Fin rw) (Fin r) (Fin n) c (Fin nod)) = Ok (Fin D)
    /\ ln D = 1.1 * ln h - 0.2 * ln t + 0.1 * ln (2 * PI / 9.81) - ln (r / rw - 1) - ln (6.7 * (Rpower nod 0.4 / Rpower n 0.3) + 1)).
  { intros h t r n nod c P1 P2 P3 P4 P5. destruct (ConcreteUnits.C41_diameter_total h t n nod r rw) as (D & HD & R1); try assumption.
    exists D. split; [exact HD|]. split; [eapply ConcreteUnits.C41_double_layer_functions_agree_with_relation; try eassumption; reflexivity|].
    unfold cubes_vdm in R1. pose proof (buoyant_pos r rw Hw P3) as B. unfold buoyant in B. set (k := 6.7 * (Rpower nod 0.4 / Rpower n 0.3) + 1) in *.
    assert (0 < k) by (unfold k; rpos). clearbody k. set (de := r / rw - 1) in *. clearbody de. replace (2 * PI * h / (9.81 * t ^ 2)) with (2 * PI / 9.81 * h / t ^ 2) in R1 by (field; lra).
    assert (0 < 2 * PI / 9.81) by rpos. set (p := 2 * PI / 9.81) in *. clearbody p. assert (0 < p * h / t ^ 2) by rpos. rewrite ln_eq_iff in R1 by rpos. revert R1. ln_push. simpl INR. lra. }
  destruct (V H T rs N Nod cot) as (D & HD & -> & E); [lra..|]. destruct (V H' T' rs' N' Nod' cot') as (D' & HD' & -> & E'); [lra..|]. clear V.
  apply by_logs; [assumption..|]. rewrite E, E'. destruct (buoyant_le rs rs' rw Hw Hs) as [B B']. destruct (ln_le2 _ _ B) as [C C'].
  destruct (ln_le2 _ _ HH) as [A1 A2]. destruct (ln_le2 _ _ HT) as [A3 A4].
  assert (Q : Rpower Nod' 0.4 / Rpower N' 0.3 <= Rpower Nod 0.4 / Rpower N 0.3 /\ (N < N' \/ Nod' < Nod -> Rpower Nod' 0.4 / Rpower N' 0.3 < Rpower Nod 0.4 / Rpower N 0.3)).
  { destruct (ln_le2 _ _ HN) as [A5 A6]. destruct (ln_le2 _ _ HNod) as [A7 A8]. assert (0 < N) by lra. assert (0 < N') by lra. assert (0 < Nod) by lra. assert (0 < Nod') by lra. split.
    - apply ln_le_iff; [rpos..|]. ln_push. lra.
    - intros K. apply ln_lt_iff; [rpos..|]. ln_push. destruct K as [K|K]; [specialize (A6 K)|specialize (A8 K)]; lra. }
  assert (0 < Rpower Nod' 0.4 / Rpower N' 0.3) by (apply Rdiv_lt_0_compat; apply exp_pos). set (q := Rpower Nod 0.4 / Rpower N 0.3) in *. set (q' := Rpower Nod' 0.4 / Rpower N' 0.3) in *. clearbody q q'.
  destruct (ln_le2 (6.7 * q' + 1) (6.7 * q + 1) ltac:(lra)) as [A5 A6]. destruct Q as [Q Q'].
  split; [lra|]. intros [K|[K|[K|K]]]; [specialize (A2 K)|specialize (A4 K)|specialize (C' (B' K))|specialize (A6 ltac:(specialize (Q' K); lra))]; lra.
Qed.

(** ** Scaravaglione et al.: also steeper slopes, longer waves and a finer core. *)
Theorem C78_scaravaglione : forall H H' T T' N N' cot cot' rw rs rs' S S' Dc Dc' c c' mc mc' rc rc',
  0 < H <= H' -> 0 < T <= T' -> 0 < N <= N' -> 0 < cot' <= cot -> 0 < rw -> rw < rs' <= rs -> 0 < S' <= S -> 0 < Dc' <= Dc -> 0 < c' <= c ->
  rises (H < H' \/ T < T' \/ N < N' \/ cot' < cot \/ rs' < rs \/ S' < S \/ Dc' < Dc \/ c' < c)
    (value (Scaravaglione2025.calculate_nominal_rock_diameter_Dn50 (Fin H) (Fin T) (Fin N) (Fin cot) (Fin rs) rc (Fin S) (Fin Dc) mc (Fin c) (Fin rw)))
    (value (Scaravaglione2025.calculate_nominal_rock_diameter_Dn50 (Fin H') (Fin T') (Fin N') (Fin cot') (Fin rs') rc' (Fin S') (Fin Dc') mc' (Fin c') (Fin rw))).
Proof.
  intros H H' T T' N N' cot cot' rw rs rs' S S' Dc Dc' c c' mc mc' rc rc' HH HT HN Hcot Hw Hs HS HD Hc.
  assert (V : forall h t n k r s dc cc m1 r1, 0 < h -> 0 < t -> 0 < n -> 0 < k -> rw < r -> 0 < s -> 0 < dc -> 0 < cc -> exists A, 0 < A
    /\ value (Scaravaglione2025.calculate_nominal_rock_diameter_Dn50 (Fin h) (Fin t) (Fin n) (Fin k) (Fin r) r1 (Fin s) (Fin dc) m1 (Fin cc) (Fin rw)) = Ok (Fin (A - dc))
    /\ ln A = 0.9 * ln h + 0.2 * ln t - 0.1 * ln (2 * PI / g0) - ln (r / rw - 1) - ln cc - 0.2 * ln s + 0.1 * ln n - / 2 * ln k).
  { intros h t n k r s dc cc m1 r1 P1 P2 P3 P4 P5 P6 P7 P8. pose proof (buoyant_pos r rw Hw P5) as B. pose proof g0_pos as G. assert (0 < sqrt n) by rpos. assert (0 < s / sqrt n) by rpos. assert (0 < sqrt k) by rpos.
    pose proof (steepness_pos g0 h t G P1 P2) as ST.
    exists (h / buoyant r rw * (1 / cc) * Rpower (s / sqrt n) (- (0.2)) * (1 / sqrt k) * Rpower (steepness g0 h t) (- (0.1))). split; [rpos|]. split.
    - unfold Scaravaglione2025.calculate_nominal_rock_diameter_Dn50. rewrite !RockVdM.usage_fin, !bind_ret_l. mval. rewrite RockScaravaglione.checks_sc. mval.
      change g_default with (Fin g0). rewrite steepness_fin, Delta_fin by (assumption || lra). nfin. reflexivity.
    - replace (steepness g0 h t) with (2 * PI / g0 * h / t ^ 2) by (unfold steepness; field; lra). assert (0 < 2 * PI / g0) by rpos. unfold buoyant in *. set (p := 2 * PI / g0) in *. clearbody p. set (de := r / rw - 1) in *. clearbody de.
      assert (0 < p * h / t ^ 2) by rpos. ln_push. rewrite ln_1. simpl INR. lra. }
  destruct (V H T N cot rs S Dc c mc rc) as (A & HA & EV & E); [lra..|]. destruct (V H' T' N' cot' rs' S' Dc' c' mc' rc') as (A' & HA' & EV' & E'); [lra..|]. clear V.
  exists (A - Dc), (A' - Dc'). split; [exact EV|]. split; [exact EV'|].
  destruct (buoyant_le rs rs' rw Hw Hs) as [B B']. destruct (ln_le2 _ _ B) as [C C'].
  destruct (ln_le2 _ _ HH) as [A1 B1]. destruct (ln_le2 _ _ HT) as [A2 B2]. destruct (ln_le2 _ _ HN) as [A3 B3]. destruct (ln_le2 _ _ Hcot) as [A4 B4]. destruct (ln_le2 _ _ HS) as [A5 B5]. destruct (ln_le2 _ _ Hc) as [A6 B6].
  assert (L : A <= A') by (apply ln_le_iff; [assumption..|]; lra). split; [lra|].
  intros [K|[K|[K|[K|[K|[K|[K|K]]]]]]]; [specialize (B1 K)|specialize (B2 K)|specialize (B3 K)|specialize (B4 K)|specialize (C' (B' K))|specialize (B5 K)|lra|specialize (B6 K)];
    (assert (A < A') by (apply ln_lt_iff; [assumption..|]; lra); lra).
Qed.

(** ** Jumelet et al. (2024)
    The number of plunging waves is rounded to a whole number, so slightly higher waves of the
    same period can be allowed smaller stones. *)
Theorem C78_jumelet_refuted :
  exists T H H' D D', 0 < T /\ 0 < H < H' /\ 0 < D' < D
    /\ value (Jumelet2024.calculate_nominal_rock_diameter_Dn50 (Fin H) (Fin T) (Fin 2) (Fin 2) (Fin 2650) (Fin 2) (Fin 5)) = Ok (Fin D)
    /\ value (Jumelet2024.calculate_nominal_rock_diameter_Dn50 (Fin H') (Fin T) (Fin 2) (Fin 2) (Fin 2650) (Fin 2) (Fin 5)) = Ok (Fin D').
Proof.
  set (k := sqrt (2 * PI / g0)). pose proof g0_pos as G. assert (P0 : 0 < 2 * PI / g0) by rpos. assert (K : 0 < k) by (apply sqrt_lt_R0; exact P0).
  set (T := 0.56 * 2 * k). set (H' := (28 / 27) ^ 2). assert (HT : 0 < T) by (unfold T; lra). assert (HH' : 1 < H') by (unfold H'; lra).
  assert (X : forall h, 0 < h -> iribarren g0 (h ^ 2) T (1 / 2) = 0.56 / h).
  { intros h Ph. unfold iribarren. assert (E : sqrt (steepness g0 (h ^ 2) T) = k * h / T).
    { replace (steepness g0 (h ^ 2) T) with (2 * PI / g0 * (h / T) ^ 2) by (unfold steepness; field; lra). assert (0 < h / T) by rpos. rewrite sqrt_mult by (try lra; left; apply pow_lt; assumption). fold k. rewrite sqrt_pow2 by lra. field. lra. }
    rewrite E. unfold T. field. lra. }
  pose proof (X 1 ltac:(lra)) as X1. pose proof (X (28 / 27) ltac:(lra)) as X2. fold H' in X2. replace (1 ^ 2) with 1 in X1 by ring. replace (0.56 / 1) with 0.56 in X1 by lra. replace (0.56 / (28 / 27)) with 0.54 in X2 by lra.
  destruct (RockJumelet.C46_functions_agree_with_relation 1 T 2 2 2650) as (n & Ln & A); [lra..|].
  destruct (RockJumelet.C46_functions_agree_with_relation H' T 2 2 2650) as (n' & Ln' & A'); [lra..|].
  rewrite X1 in Ln, A. rewrite X2 in Ln', A'.
  unfold nearest_whole, plunging_fraction in Ln, Ln'. assert (U : forall x b, Rabs x <= b -> - b <= x <= b) by (intros x b; unfold Rabs; destruct (Rcase_abs x); lra). apply U in Ln. apply U in Ln'. clear U.
  assert (n = 2%Z) as ->.
  { assert (1 < IZR n) by lra. assert (IZR n < 3) by lra. apply (lt_IZR 1) in H. apply (lt_IZR n 3) in H0. lia. }
  assert (n' = 1%Z) as ->.
  { assert (0 < IZR n') by lra. assert (IZR n' < 2) by lra. apply (lt_IZR 0) in H. apply (lt_IZR n' 2) in H0. lia. }
  destruct (RockJumelet.C46_damage_and_diameter_exist 5 2 0.56 (2650 / 1025 - 1) 1) as (_ & Q); [lra|lia|lra..|]. destruct (Q 2 ltac:(lra)) as (D & HD & E). clear Q.
  destruct (RockJumelet.C46_damage_and_diameter_exist 5 1 0.54 (2650 / 1025 - 1) H') as (_ & Q); [lra|lia|lra..|]. destruct (Q 2 ltac:(lra)) as (D' & HD' & E'). clear Q.
  exists T, 1, H', D, D'. split; [exact HT|]. split; [lra|].
  destruct (A D 5 2 NaN ltac:(lia) HD ltac:(lra) ltac:(lra) E) as [_ V]. destruct (A' D' 5 2 NaN ltac:(lia) HD' ltac:(lra) ltac:(lra) E') as [_ V'].
  split; [|split; [exact V|exact V']]. split; [exact HD'|]. clear A A' V V' X1 X2 Ln Ln' X.
  unfold jumelet in E, E'. set (de := 2650 / 1025 - 1) in *. assert (0 < de) by (unfold de; lra). clearbody de.
  rewrite ln_eq_iff in E by rpos. rewrite ln_eq_iff in E' by rpos. revert E E'. unfold H'. ln_push. rewrite !ln_1. simpl INR. intros E E'.
  assert (Z1 : ln 28 - ln 27 < 0.1 * ln 2).
  { assert (Y : ln (28 ^ 10) < ln (2 * 27 ^ 10)) by (apply ln_increasing; simpl; lra). revert Y. ln_push. simpl INR. lra. }
  assert (Z2 : ln 0.56 - ln 0.54 = ln 28 - ln 27).
  { assert (Y : ln (0.56 * 27) = ln (0.54 * 28)) by (f_equal; lra). rewrite !ln_mult in Y by lra. lra. }
  apply ln_lt_iff; [assumption..|]. lra.
Qed.
