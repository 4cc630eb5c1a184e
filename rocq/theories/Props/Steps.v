(** Property C87: where a small change of an argument changes the answer little,
    and where the answer makes a step. *)
From Coq Require Import Reals Lra List Bool String Psatz.
From Verif.Lib Require Import Num Monad RTac NTac.
From Verif.Spec Require Import Waves Taw Rock Steps.
From Verif.Model Require Import CoreUtility CorePhysics.
From Verif.Model Require RunupTAW2002 OvertoppingTAW2002 Goda1985 VanderMeer1988 VanderMeer1988Modified.
From Verif.Proofs Require Import Core Taw VdM Steps.
From Verif.Props Require RunupTAW OvertoppingTAW CaissonGoda RockVdM.
Import ListNotations.
Open Scope R_scope.

(** ** Steady everywhere *)

(** Oblique waves: one degree changes the factor by at most 0.0022 (run-up) and
    0.0033 (overtopping). *)
Lemma oblique_near c a b : 0 <= c -> Rabs (taw_oblique c a - taw_oblique c b) <= c * Rabs (a - b).
Proof.
  intros Hc. unfold taw_oblique. replace (1 - c * Rmin (Rabs a) 80 - (1 - c * Rmin (Rabs b) 80)) with (c * (Rmin (Rabs b) 80 - Rmin (Rabs a) 80)) by ring.
  rewrite Rabs_mult, (Rabs_right c) by lra. apply Rmult_le_compat_l; [exact Hc|].
  unfold Rmin, Rabs. repeat destruct (Rle_dec _ _); repeat destruct (Rcase_abs _); lra.
Qed.
Theorem C87_oblique_waves : forall a b, exists v w v' w',
  RunupTAW2002.calculate_influence_oblique_waves_gamma_beta (Fin a) RunupTAW2002.c_gamma_beta_default RunupTAW2002.max_angle_default = Fin v
  /\ RunupTAW2002.calculate_influence_oblique_waves_gamma_beta (Fin b) RunupTAW2002.c_gamma_beta_default RunupTAW2002.max_angle_default = Fin w
  /\ OvertoppingTAW2002.calculate_influence_oblique_waves_gamma_beta (Fin a) OvertoppingTAW2002.c_gamma_beta_default OvertoppingTAW2002.max_angle_default = Fin v'
  /\ OvertoppingTAW2002.calculate_influence_oblique_waves_gamma_beta (Fin b) OvertoppingTAW2002.c_gamma_beta_default OvertoppingTAW2002.max_angle_default = Fin w'
  /\ Rabs (v - w) <= 0.0022 * Rabs (a - b) /\ Rabs (v' - w') <= 0.0033 * Rabs (a - b).
Proof.
  intros a b. exists (taw_oblique 0.0022 a), (taw_oblique 0.0022 b), (taw_oblique 0.0033 a), (taw_oblique 0.0033 b).
  unfold OvertoppingTAW2002.calculate_influence_oblique_waves_gamma_beta, RunupTAW2002.c_gamma_beta_default, OvertoppingTAW2002.c_gamma_beta_default.
  change OvertoppingTAW2002.max_angle_default with RunupTAW2002.max_angle_default. rewrite !oblique_fin.
  repeat split; try reflexivity; apply oblique_near; lra.
Qed.

(** The berm factor, whatever the level of the berm: also at still water, at the
    run-up level and two wave heights below still water. *)
Lemma berm_cont B L : continuity (taw_berm B L).
Proof.
  intros r. apply near_cont. intros e He. set (k := Rabs (B / L)). assert (0 <= k) by apply Rabs_pos.
  exists (e / (k + 1)). assert (0 < e / (k + 1)) by (apply Rdiv_lt_0_compat; lra). split; [assumption|]. intros y Hy.
  assert (A : Rabs (taw_berm B L y - taw_berm B L r) <= Rabs (B / L * (y - r))).
  { unfold taw_berm. replace (B / L * (y - r)) with ((1 - B / L * (1 - y)) - (1 - B / L * (1 - r))) by ring.
    generalize (1 - B / L * (1 - y)) (1 - B / L * (1 - r)). intros p q.
    unfold Rmin, Rmax, Rabs. repeat destruct (Rle_dec _ _); repeat destruct (Rcase_abs _); lra. }
  rewrite Rabs_mult in A. fold k in A. assert (e / (k + 1) * (k + 1) = e) by (field; lra).
  pose proof (Rabs_pos (y - r)). nra.
Qed.
Definition berm_rise (H z db : R) : R :=
  if Rlt_dec (2 * H) db then 1 else if Rlt_dec db (- z) then 1
  else if Rle_dec 0 db then 0.5 - 0.5 * cos (PI * db / (2 * H)) else 0.5 - 0.5 * cos (PI * db / z).
Lemma berm_rise_fin H z db B L : 0 < H -> L <> 0 ->
  RunupTAW2002.calculate_influence_berm_gamma_b (Fin H) (Fin z) (Fin db) (Fin B) (Fin L) = Fin (taw_berm B L (berm_rise H z db)).
Proof.
  intros HH HL. destruct (berm_fin H z db B L HH HL) as (r & P & _ & ->). do 2 f_equal.
  apply (berm_position_fun H z db); [exact P|]. unfold berm_rise.
  destruct (Rlt_dec (2 * H) db); [constructor; lra|]. destruct (Rlt_dec db (- z)); [constructor; lra|].
  destruct (Rle_dec 0 db); [apply berm_below; lra|apply berm_above; lra].
Qed.
Lemma cos_cont k x : continuity_pt (fun y => 0.5 - 0.5 * cos (PI * y / k)) x.
Proof. unfold Rdiv. reg. Qed.
Lemma rise_steady H z x : 0 < H -> 0 < z -> steady (fun db => Fin (berm_rise H z db)) x.
Proof.
  intros HH Hz.
  assert (C0 : 0.5 - 0.5 * cos (PI * 0 / (2 * H)) = 0) by (replace (PI * 0 / (2 * H)) with 0 by (field; lra); rewrite cos_0; lra).
  assert (C0' : 0.5 - 0.5 * cos (PI * 0 / z) = 0) by (replace (PI * 0 / z) with 0 by (field; lra); rewrite cos_0; lra).
  assert (C1 : 0.5 - 0.5 * cos (PI * (2 * H) / (2 * H)) = 1) by (replace (PI * (2 * H) / (2 * H)) with PI by (field; lra); rewrite cos_PI; lra).
  assert (C1' : 0.5 - 0.5 * cos (PI * (- z) / z) = 1).
  { replace (PI * (- z) / z) with (- PI) by (field; lra). rewrite cos_neg, cos_PI. lra. }
  assert (K : forall r, continuity_pt (fun _ : R => r) x) by (intros r; apply continuity_pt_const; intros a b; reflexivity).
  assert (U : forall y, (2 * H < y \/ y < - z -> berm_rise H z y = 1) /\ (0 <= y <= 2 * H -> berm_rise H z y = 0.5 - 0.5 * cos (PI * y / (2 * H)))
                     /\ (- z <= y <= 0 -> berm_rise H z y = 0.5 - 0.5 * cos (PI * y / z))).
  { intros y. unfold berm_rise. repeat split; intros Hy; repeat destruct (Rlt_dec _ _); repeat destruct (Rle_dec _ _); try lra.
    replace y with 0 by lra. rewrite C0, C0'. reflexivity. }
  destruct (Rtotal_order x (- z)) as [L|[->|L]].
  - apply (steady_by _ (fun _ => 1) x (- z - x)); [apply K|lra|]. intros y Hy. apply Rabs_def2 in Hy. f_equal. apply U. lra.
  - apply (steady_glue _ 1).
    + f_equal. rewrite <- C1'. apply U. lra.
    + apply (below_by _ (fun _ => 1) (- z) 1); [apply K|lra|]. intros y Hy. f_equal. apply U. lra.
    + rewrite <- C1'. apply (above_by _ (fun y => 0.5 - 0.5 * cos (PI * y / z)) (- z) z); [apply cos_cont|lra|]. intros y Hy. f_equal. apply U. lra.
  - destruct (Rtotal_order x 0) as [L0|[->|L0]].
    + apply (steady_by _ (fun y => 0.5 - 0.5 * cos (PI * y / z)) x (Rmin (x + z) (- x))); [apply cos_cont|apply Rmin_pos; lra|].
      intros y Hy. apply Rabs_def2 in Hy. pose proof (Rmin_l (x + z) (- x)). pose proof (Rmin_r (x + z) (- x)). f_equal. apply U. lra.
    + apply (steady_glue _ 0).
      * f_equal. transitivity (0.5 - 0.5 * cos (PI * 0 / (2 * H))); [apply U; lra|exact C0].
      * assert (Q : just_below (fun db => Fin (berm_rise H z db)) 0 (0.5 - 0.5 * cos (PI * 0 / z))).
        { apply (below_by _ (fun y => 0.5 - 0.5 * cos (PI * y / z)) 0 z); [apply cos_cont|lra|]. intros y Hy. f_equal. apply U. lra. }
        rewrite C0' in Q. exact Q.
      * assert (Q : just_above (fun db => Fin (berm_rise H z db)) 0 (0.5 - 0.5 * cos (PI * 0 / (2 * H)))).
        { apply (above_by _ (fun y => 0.5 - 0.5 * cos (PI * y / (2 * H))) 0 (2 * H)); [apply cos_cont|lra|]. intros y Hy. f_equal. apply U. lra. }
        rewrite C0 in Q. exact Q.
    + destruct (Rtotal_order x (2 * H)) as [L1|[->|L1]].
      * apply (steady_by _ (fun y => 0.5 - 0.5 * cos (PI * y / (2 * H))) x (Rmin x (2 * H - x))); [apply cos_cont|apply Rmin_pos; lra|].
        intros y Hy. apply Rabs_def2 in Hy. pose proof (Rmin_l x (2 * H - x)). pose proof (Rmin_r x (2 * H - x)). f_equal. apply U. lra.
      * apply (steady_glue _ 1).
        -- f_equal. rewrite <- C1. apply U. lra.
        -- rewrite <- C1. apply (below_by _ (fun y => 0.5 - 0.5 * cos (PI * y / (2 * H))) (2 * H) (2 * H)); [apply cos_cont|lra|]. intros y Hy. f_equal. apply U. lra.
        -- apply (above_by _ (fun _ => 1) (2 * H) 1); [apply K|lra|]. intros y Hy. f_equal. apply U. lra.
      * apply (steady_by _ (fun _ => 1) x (x - 2 * H)); [apply K|lra|]. intros y Hy. apply Rabs_def2 in Hy. f_equal. apply U. lra.
Qed.
Lemma steady_through f g h x : continuity h -> (forall y, g y = Fin (h (f y))) -> steady (fun y => Fin (f y)) x -> steady g x.
Proof.
  intros C E (v & Ev & S). injection Ev as <-. exists (h (f x)). split; [apply E|]. intros e He.
  destruct (cont_near h (f x) (C _) e He) as (d & Hd & G). destruct (S d Hd) as (d' & Hd' & G'). exists d'. split; [exact Hd'|].
  intros y Hy. destruct (G' y Hy) as (w & Ew & Hw). injection Ew as <-. exists (h (f y)). split; [apply E|apply G, Hw].
Qed.
Theorem C87_berm_level : forall H z B L db, 0 < H -> 0 < z -> L <> 0 ->
  steady (fun db => RunupTAW2002.calculate_influence_berm_gamma_b (Fin H) (Fin z) (Fin db) (Fin B) (Fin L)) db.
Proof.
  intros H z B L db HH Hz HL. apply (steady_through (berm_rise H z) _ (taw_berm B L)); [apply berm_cont| |apply rise_steady; assumption].
  intros y. apply berm_rise_fin; assumption.
Qed.

(** The heel pressure under a Goda caisson, also where the back of the base starts
    to lift: the two expressions meet. *)
Theorem C87_heel_pressure : forall W t MU FU B MH, 0 < B -> FU < W -> W * t - MU - MH <> 0 ->
  steady (fun m => fst (fst (fst (Goda1985.calculate_bearing_pressures (Fin W) (Fin t) (Fin m) (Fin MU) (Fin FU) (Fin B))))) MH.
Proof.
  intros W t MU FU B x HB HW N. set (w := W - FU). assert (Hw : 0 < w) by (unfold w; lra).
  set (lever := fun m => (W * t - MU - m) / w).
  assert (Nz : forall m, W * t - MU - m <> 0 -> lever m <> 0).
  { intros m Hm Z. apply Hm. unfold lever in Z. apply (f_equal (fun a => a * w)) in Z. rewrite Rmult_0_l in Z. rewrite <- Z. field. lra. }
  assert (Cl : continuity lever) by (unfold lever, Rdiv; reg).
  set (lifted := fun m => 2 * w / (3 * lever m)). set (whole := fun m => 2 * w / B * (2 - 3 * (lever m / B))).
  assert (C1 : continuity_pt lifted x).
  { unfold lifted. apply continuity_pt_div; [apply continuity_pt_const; intros a b; reflexivity|apply continuity_pt_scal, Cl|]. specialize (Nz x N). cbv beta. lra. }
  assert (C2 : continuity_pt whole x).
  { unfold whole. apply continuity_pt_scal. apply continuity_pt_minus; [apply continuity_pt_const; intros a b; reflexivity|].
    apply continuity_pt_scal. unfold Rdiv. apply (continuity_pt_mult lever (fun _ => / B)); [apply Cl|apply continuity_pt_const; intros a b; reflexivity]. }
  assert (V : forall m, W * t - MU - m <> 0 ->
    fst (fst (fst (Goda1985.calculate_bearing_pressures (Fin W) (Fin t) (Fin m) (Fin MU) (Fin FU) (Fin B))))
    = Fin (if Rleb (lever m) (1 / 3 * B) then lifted m else whole m)).
  { intros m Hm. rewrite (CaissonGoda.bearing_value W t m MU FU B HB HW (Nz m Hm)). reflexivity. }
  assert (Zr : exists r, 0 < r /\ forall y, Rabs (y - x) < r -> W * t - MU - y <> 0).
  { exists (Rabs (W * t - MU - x)). split; [apply Rabs_pos_lt, N|]. intros y Hy Z. replace (y - x) with (W * t - MU - x) in Hy by lra. lra. }
  destruct Zr as (r & Hr & Zr).
  assert (Fall : forall y y', y < y' -> lever y' < lever y).
  { intros y y' Hy. unfold lever. apply Rmult_lt_compat_r; [apply Rinv_0_lt_compat, Hw|lra]. }
  assert (Kb : continuity_pt (fun _ : R => 1 / 3 * B) x) by (apply continuity_pt_const; intros a b; reflexivity).
  destruct (Rtotal_order (lever x) (1 / 3 * B)) as [L|[E|L]].
  - destruct (cont_below _ _ x (Cl x) Kb L) as (d & Hd & G).
    apply (steady_by _ lifted x (Rmin d r)); [exact C1|apply Rmin_pos; assumption|]. intros y Hy. pose proof (Rmin_l d r). pose proof (Rmin_r d r).
    rewrite V by (apply Zr; lra). rewrite Rleb_true; [reflexivity|]. left. apply G. lra.
  - assert (M : lifted x = whole x) by (unfold lifted, whole; rewrite E; field; lra).
    apply (steady_glue _ (lifted x)).
    + rewrite V by exact N. rewrite Rleb_true by lra. reflexivity.
    + rewrite M. apply (below_by _ whole x r); [exact C2|exact Hr|]. intros y Hy. rewrite V by (apply Zr; rewrite Rabs_left; lra).
      rewrite Rleb_false; [reflexivity|]. rewrite <- E. apply Fall. lra.
    + apply (above_by _ lifted x r); [exact C1|exact Hr|]. intros y Hy. rewrite V by (apply Zr; rewrite Rabs_right; lra).
      rewrite Rleb_true; [reflexivity|]. rewrite <- E. left. apply Fall. lra.
  - destruct (cont_below _ _ x Kb (Cl x) L) as (d & Hd & G).
    apply (steady_by _ whole x (Rmin d r)); [exact C2|apply Rmin_pos; assumption|]. intros y Hy. pose proof (Rmin_l d r). pose proof (Rmin_r d r).
    rewrite V by (apply Zr; lra). rewrite Rleb_false; [reflexivity|]. apply G. lra.
Qed.

(** ** Steps *)
Lemma const_cont r x : continuity_pt (fun _ : R => r) x.
Proof. apply continuity_pt_const. intros a b. reflexivity. Qed.

(** The crest wall factor: steady but for a drop from 1 to 0.999 at 45 degrees. *)
Theorem C87_wall_angle :
  step (fun a => OvertoppingTAW2002.calculate_influence_crest_wall_gamma_v (Fin a)) 45 1 1 0.999
  /\ forall a, a <> 45 -> steady (fun a => OvertoppingTAW2002.calculate_influence_crest_wall_gamma_v (Fin a)) a.
Proof.
  assert (V : forall a, OvertoppingTAW2002.calculate_influence_crest_wall_gamma_v (Fin a) = Fin (taw_wall a)) by apply OvertoppingTAW.C14_wall.
  assert (C : forall x, continuity_pt (fun a => 1.35 - 0.0078 * a) x) by (intros; reg).
  assert (V1 : forall a, a <= 45 -> taw_wall a = 1) by (intros; unfold taw_wall; destruct (Rle_dec a 45); lra).
  assert (V2 : forall a, 45 < a -> taw_wall a = 1.35 - 0.0078 * a) by (intros; unfold taw_wall; destruct (Rle_dec a 45); lra).
  split; [split; [|split; [|split]]|].
  - apply (below_by _ (fun _ => 1) 45 1); [apply const_cont|lra|]. intros. rewrite V, V1 by lra. reflexivity.
  - rewrite V, V1 by lra. reflexivity.
  - replace 0.999 with (1.35 - 0.0078 * 45) by lra. apply (above_by _ (fun a => 1.35 - 0.0078 * a) 45 1); [apply C|lra|].
    intros. rewrite V, V2 by lra. reflexivity.
  - lra.
  - intros x N. destruct (Rtotal_order x 45) as [L|[->|L]]; [|lra|].
    + apply (steady_by _ (fun _ => 1) x (45 - x)); [apply const_cont|lra|]. intros y Hy. apply Rabs_def2 in Hy. rewrite V, V1 by lra. reflexivity.
    + apply (steady_by _ (fun a => 1.35 - 0.0078 * a) x (x - 45)); [apply C|lra|]. intros y Hy. apply Rabs_def2 in Hy. rewrite V, V2 by lra. reflexivity.
Qed.

(** The roughness of a slope: it drops back to the bare factor at a breaker
    parameter of 10 over the berm factor, and with a berm also jumps at 1.8 over
    the berm factor; it is steady everywhere else. *)
Theorem C87_roughness : forall gf gb, 0 < gf < 1 -> 0.6 <= gb <= 1 ->
  let f := fun xi => RunupTAW2002.calculate_adjusted_influence_roughness_gamma_f (Fin gf) (Fin gb) (Fin xi) in
  let rising := fun xi => gf + (1 - gf) * ((xi - 1.8) / 8.2) in
  step f (10 / gb) (rising (10 / gb)) (rising (10 / gb)) gf
  /\ (gb < 1 -> step f (1.8 / gb) gf (rising (1.8 / gb)) (rising (1.8 / gb)))
  /\ (gb = 1 -> steady f 1.8)
  /\ (forall xi, xi <> 1.8 / gb -> xi <> 10 / gb -> steady f xi).
Proof.
  intros gf gb Hf Hb f rising. set (u := 1.8 / gb). set (v := 10 / gb).
  assert (E1 : gb * u = 1.8) by (unfold u; field; lra). assert (E2 : gb * v = 10) by (unfold v; field; lra).
  assert (Hu : 1.8 <= u) by nra. assert (Hv : 10 <= v) by nra. assert (Huv : u < v) by nra.
  assert (C : forall x, continuity_pt rising x) by (intros; unfold rising, Rdiv; reg).
  assert (Vo : forall y, y < u \/ v < y -> f y = Fin gf).
  { intros y Hy. unfold f. rewrite roughness_fin. f_equal. unfold taw_roughness. destruct (Rle_dec 1.8 (gb * y)); [|reflexivity].
    destruct (Rle_dec (gb * y) 10); [|reflexivity]. exfalso. destruct Hy; nra. }
  assert (Vi : forall y, u <= y <= v -> f y = Fin (rising y)).
  { intros y Hy. unfold f. rewrite roughness_fin. f_equal. unfold taw_roughness. destruct (Rle_dec 1.8 (gb * y)); [|nra].
    destruct (Rle_dec (gb * y) 10); [reflexivity|nra]. }
  split; [|split; [|split]].
  - split; [|split; [|split]].
    + apply (below_by _ rising v (v - u)); [apply C|lra|]. intros y Hy. apply Vi. lra.
    + apply Vi. lra.
    + apply (above_by _ (fun _ => gf) v 1); [apply const_cont|lra|]. intros y Hy. apply Vo. lra.
    + unfold rising. assert (0 < (v - 1.8) / 8.2) by lra. nra.
  - intros L. assert (1.8 < u) by nra. split; [|split; [|split]].
    + apply (below_by _ (fun _ => gf) u 1); [apply const_cont|lra|]. intros y Hy. apply Vo. lra.
    + apply Vi. lra.
    + apply (above_by _ rising u (v - u)); [apply C|lra|]. intros y Hy. apply Vi. lra.
    + unfold rising. assert (0 < (u - 1.8) / 8.2) by lra. nra.
  - intros ->. assert (U : u = 1.8) by lra. rewrite <- U. assert (R : rising u = gf) by (unfold rising; rewrite U; lra).
    apply (steady_glue _ (rising u)).
    + apply Vi. lra.
    + rewrite R. apply (below_by _ (fun _ => gf) u 1); [apply const_cont|lra|]. intros y Hy. apply Vo. lra.
    + apply (above_by _ rising u (v - u)); [apply C|lra|]. intros y Hy. apply Vi. lra.
  - intros x N1 N2. destruct (Rlt_le_dec x u) as [L|L]; [|destruct (Rlt_le_dec v x) as [L'|L']].
    + apply (steady_by _ (fun _ => gf) x (u - x)); [apply const_cont|lra|]. intros y Hy. apply Rabs_def2 in Hy. apply Vo. lra.
    + apply (steady_by _ (fun _ => gf) x (x - v)); [apply const_cont|lra|]. intros y Hy. apply Rabs_def2 in Hy. apply Vo. lra.
    + assert (u < x < v) by lra. apply (steady_by _ rising x (Rmin (x - u) (v - x))); [apply C|apply Rmin_pos; lra|].
      intros y Hy. apply Rabs_def2 in Hy. pose proof (Rmin_l (x - u) (v - x)). pose proof (Rmin_r (x - u) (v - x)). apply Vi. lra.
Qed.

(** The run-up itself as a function of the wave period: where the roughness drops
    back, somewhat longer waves run up less, by the ratio of the two roughness
    factors. *)
Lemma iribarren_linear H T c : 0 < H -> 0 < T -> 0 < c ->
  iribarren g0 H T (1 / c) = 1 / c / sqrt (2 * PI * H / g0) * T.
Proof.
  intros HH HT Hc. pose proof g0_pos. pose proof PI_RGT_0. unfold iribarren, steepness.
  replace (2 * PI * H / (g0 * T ^ 2)) with (2 * PI * H / g0 * (/ T * / T)) by (field; lra).
  assert (0 < / T) by (apply Rinv_0_lt_compat; lra). assert (0 < 2 * PI * H / g0) by rpos.
  rewrite sqrt_mult by nra. rewrite sqrt_square by lra. assert (0 < sqrt (2 * PI * H / g0)) by (apply sqrt_lt_R0; assumption).
  field. lra.
Qed.

Definition runup_by_period (H gbeta gb gf cot : R) (T : R) : num :=
  match value (RunupTAW2002.calculate_wave_runup_height_z2p (Fin H) (Fin T) NaN (Fin gbeta) (Fin gb) (Fin gf) #0 #0 (Fin cot) NaN NaN
    RunupTAW2002.c1_default RunupTAW2002.c2_default RunupTAW2002.c3_default RunupTAW2002.c4_default false) with Ok (z, _) => z | _ => NaN end.

Theorem C87_runup_drops : forall H gbeta gb gf cot T, 0 < H -> 0 < gbeta -> 0 < gf < 1 -> 0.6 <= gb <= 1 -> 0 < cot -> 0 < T ->
  iribarren g0 H T (1 / cot) = 10 / gb ->
  exists before after, 0 < after < before
    /\ step (runup_by_period H gbeta gb gf cot) T before before after
    /\ after * (gf + (1 - gf) * ((10 / gb - 1.8) / 8.2)) = before * gf.
Proof.
  intros H gbeta gb gf cot T HH Hbeta Hf Hb Hc HT EX. set (v := 10 / gb) in *.
  assert (E2 : gb * v = 10) by (unfold v; field; lra). assert (Hv : 10 <= v) by nra.
  assert (Hpi : 0 < 2 * PI * H / g0) by (pose proof g0_pos; pose proof PI_RGT_0; rpos).
  assert (Hs : 0 < sqrt (2 * PI * H / g0)) by (apply sqrt_lt_R0; exact Hpi).
  set (k := 1 / cot / sqrt (2 * PI * H / g0)). assert (Hk : 0 < k) by (unfold k; rpos).
  set (X := fun t => k * t).
  assert (VX : forall t, 0 < t -> iribarren g0 H t (1 / cot) = X t) by (intros; apply iribarren_linear; assumption).
  rewrite VX in EX by assumption.
  set (m := fun t => Rmin (1.75 * gb * X t) (1 * (4.3 - 1.6 / sqrt (X t)))).
  set (rising := fun t => gf + (1 - gf) * ((X t - 1.8) / 8.2)).
  assert (V : forall t, 0 < t -> runup_by_period H gbeta gb gf cot t
    = Fin (Rmin (taw_slope_runup 1.75 gb (taw_roughness gf gb (X t)) gbeta (X t)) (taw_max_runup 4.3 1.6 1 (taw_roughness gf gb (X t)) gbeta (X t)) * H)).
  { intros t Ht. unfold runup_by_period.
    destruct (RunupTAW.C11_smaller_of_two H t cot gb gf gbeta 1.75 4.3 1.6 1 NaN #0 #0 NaN HH Ht Hc) as (reached & _ & E & _).
    rewrite VX in E by exact Ht.
    change RunupTAW2002.c1_default with (Fin 1.75). change RunupTAW2002.c2_default with (Fin 4.3).
    change RunupTAW2002.c3_default with (Fin 1.6). change RunupTAW2002.c4_default with (Fin 1). rewrite E. reflexivity. }
  assert (F : forall f t, 0 < f -> Rmin (taw_slope_runup 1.75 gb f gbeta (X t)) (taw_max_runup 4.3 1.6 1 f gbeta (X t)) = f * gbeta * m t).
  { intros f t Hf'. unfold taw_slope_runup, taw_max_runup, m. assert (0 < f * gbeta) by rpos.
    unfold Rmin. repeat destruct (Rle_dec _ _); nra. }
  assert (CX : forall t, continuity_pt X t) by (intros; unfold X; reg).
  assert (HX : 0 < X T) by lra.
  assert (Cm : continuity_pt m T).
  { assert (Q : continuity_pt (fun t => (1.75 * gb * X t + 1 * (4.3 - 1.6 / sqrt (X t)) - Rabs (1.75 * gb * X t - 1 * (4.3 - 1.6 / sqrt (X t)))) / 2) T).
    { assert (S : continuity_pt (fun t => 1.6 / sqrt (X t)) T).
      { apply (continuity_pt_div (fun _ => 1.6) (fun t => sqrt (X t)) T); [apply const_cont| |].
        - apply (continuity_pt_comp X sqrt T); [apply CX|]. apply continuity_pt_sqrt. lra.
        - pose proof (sqrt_lt_R0 (X T) HX). cbv beta. lra. }
      assert (A1 : continuity_pt (fun t => 1.75 * gb * X t) T) by (apply (continuity_pt_scal X), CX).
      assert (A2 : continuity_pt (fun t => 1 * (4.3 - 1.6 / sqrt (X t))) T).
      { apply (continuity_pt_scal (fun t => 4.3 - 1.6 / sqrt (X t))). apply (continuity_pt_minus (fun _ => 4.3)); [apply const_cont|exact S]. }
      unfold Rdiv at 3. apply (continuity_pt_mult (fun t => 1.75 * gb * X t + 1 * (4.3 - 1.6 / sqrt (X t)) - Rabs (1.75 * gb * X t - 1 * (4.3 - 1.6 / sqrt (X t)))) (fun _ => / 2)); [|apply const_cont].
      apply (continuity_pt_minus (fun t => 1.75 * gb * X t + 1 * (4.3 - 1.6 / sqrt (X t))) (fun t => Rabs (1.75 * gb * X t - 1 * (4.3 - 1.6 / sqrt (X t))))).
      - apply (continuity_pt_plus _ _ T A1 A2).
      - apply (continuity_pt_comp (fun t => 1.75 * gb * X t - 1 * (4.3 - 1.6 / sqrt (X t))) Rabs T); [apply (continuity_pt_minus _ _ T A1 A2)|apply Rcontinuity_abs]. }
    apply near_cont. intros e He. destruct (cont_near _ _ Q e He) as (d & Hd & G). exists d. split; [exact Hd|]. intros y Hy. specialize (G y Hy). cbv beta in G.
    assert (Me : forall a b, Rmin a b = (a + b - Rabs (a - b)) / 2) by (intros; unfold Rmin, Rabs; destruct (Rle_dec _ _), (Rcase_abs _); lra).
    unfold m. rewrite !Me. exact G. }
  assert (Cr : continuity_pt rising T) by (unfold rising, X, Rdiv; reg).
  assert (Hm : 0 < m T).
  { unfold m. apply Rmin_glb_lt; [apply Rmult_lt_0_compat; lra|]. rewrite Rmult_1_l. rewrite EX.
    assert (3 < sqrt v). { replace 3 with (sqrt (3 * 3)) by (apply sqrt_square; lra). apply sqrt_lt_1; lra. }
    assert (1.6 / sqrt v < 1). { apply (Rmult_lt_reg_r (sqrt v)); [lra|]. replace (1.6 / sqrt v * sqrt v) with 1.6 by (field; lra). lra. }
    lra. }
  assert (Hri : gf < rising T) by (unfold rising; rewrite EX; assert (0 < (v - 1.8) / 8.2) by lra; nra).
  assert (In : forall t, 1.8 <= gb * X t <= 10 -> gf <= rising t -> taw_roughness gf gb (X t) = rising t).
  { intros t Ht _. unfold taw_roughness. destruct (Rle_dec 1.8 (gb * X t)); [|lra]. destruct (Rle_dec (gb * X t) 10); [reflexivity|lra]. }
  assert (Out : forall t, 10 < gb * X t -> taw_roughness gf gb (X t) = gf).
  { intros t Ht. unfold taw_roughness. destruct (Rle_dec 1.8 (gb * X t)); [|reflexivity]. destruct (Rle_dec (gb * X t) 10); [lra|reflexivity]. }
  assert (P0 : 0 < gbeta * m T * H) by rpos.
  exists (rising T * gbeta * m T * H), (gf * gbeta * m T * H).
  split; [split; [rpos|]|split; [split; [|split; [|split]]|]].
  - nra.
  - assert (C : continuity_pt (fun t => rising t * gbeta * m t * H) T).
    { apply (continuity_pt_mult (fun t => rising t * gbeta * m t) (fun _ => H)); [|apply const_cont].
      apply (continuity_pt_mult (fun t => rising t * gbeta) m); [|exact Cm]. apply (continuity_pt_mult rising (fun _ => gbeta)); [exact Cr|apply const_cont]. }
    apply (below_by _ (fun t => rising t * gbeta * m t * H) T (T / 2)); [exact C|lra|]. intros t Ht.
    assert (X t <= v) by (unfold X in *; nra). assert (5 <= X t) by (unfold X in *; nra). assert (gf <= rising t) by (unfold rising; assert (0 <= (X t - 1.8) / 8.2) by lra; nra).
    rewrite V by lra. rewrite In by (try assumption; nra). rewrite F by lra. reflexivity.
  - rewrite V by assumption. rewrite In by (rewrite ?EX; lra). rewrite F by lra. reflexivity.
  - assert (C : continuity_pt (fun t => gf * gbeta * m t * H) T).
    { apply (continuity_pt_mult (fun t => gf * gbeta * m t) (fun _ => H)); [|apply const_cont]. apply (continuity_pt_scal m), Cm. }
    apply (above_by _ (fun t => gf * gbeta * m t * H) T 1); [exact C|lra|]. intros t Ht.
    assert (v < X t) by (unfold X in *; nra).
    rewrite V by lra. rewrite Out by nra. rewrite F by lra. reflexivity.
  - nra.
  - replace (gf + (1 - gf) * ((v - 1.8) / 8.2)) with (rising T) by (unfold rising; rewrite EX; reflexivity). ring.
Qed.

(** The number of waves in the formula of 1988: steady at 1000 waves, but past
    5000 waves the damage jumps up by the factor 1.3 (1 - exp (-1.55)). *)
Lemma exp_155_strict : exp (-(0.00031) * 5000) < 3 / 13.
Proof.
  replace (-(0.00031) * 5000) with (- (0.0775 * INR 20)) by (simpl; lra).
  assert (E : exp (0.0775 * INR 20) = exp 0.0775 ^ 20).
  { replace (0.0775 * INR 20) with (INR 20 * 0.0775) by ring. rewrite <- Rpower_pow by apply exp_pos.
    unfold Rpower. rewrite ln_exp. reflexivity. }
  rewrite exp_Ropp, E.
  assert (1.0775 <= exp 0.0775) by (pose proof (exp_ineq1_le 0.0775); lra).
  assert (B : 1.0775 ^ 20 <= exp 0.0775 ^ 20) by (apply pow_incr; lra).
  assert (4.34 <= 1.0775 ^ 20).
  { replace (1.0775 ^ 20) with ((1.0775 ^ 4) ^ 5) by ring.
    assert (1.347 <= 1.0775 ^ 4) by (cbn [pow]; lra).
    apply (Rle_trans _ (1.347 ^ 5)); [cbn [pow]; lra|]. apply pow_incr. lra. }
  apply (Rle_lt_trans _ (/ 4.34)); [apply Rinv_le_contravar; lra|lra].
Qed.
Definition long_storm : R := 1.3 * (1 - exp (-(0.00031) * 5000)).
Lemma long_storm_gt1 : 1 < long_storm.
Proof. unfold long_storm. pose proof exp_155_strict. lra. Qed.

Lemma sqrt_cont x : 0 < x -> continuity_pt sqrt x.
Proof. intros. apply continuity_pt_sqrt. lra. Qed.
Lemma storm_steady N : 0 < N -> N <> 5000 -> steady (fun n => Fin (vdm_storm n)) N.
Proof.
  intros HN N5. set (few := fun n => n / sqrt 1000). set (many := fun n => 1.3 * (1 - exp (-(0.00031) * n)) * sqrt 5000).
  assert (Cf : forall x, continuity_pt few x) by (intros; unfold few, Rdiv; reg).
  assert (Cm : forall x, continuity_pt many x) by (intros; unfold many; reg).
  assert (V : forall n, (n < 1000 -> vdm_storm n = few n) /\ (1000 <= n <= 5000 -> vdm_storm n = sqrt n) /\ (5000 < n -> vdm_storm n = many n)).
  { intros n. unfold vdm_storm. repeat split; intros; destruct (Rlt_dec n 1000); try destruct (Rle_dec n 5000); try lra; reflexivity. }
  destruct (Rtotal_order N 1000) as [L|[->|L]].
  - apply (steady_by _ few N (1000 - N)); [apply Cf|lra|]. intros y Hy. apply Rabs_def2 in Hy. f_equal. apply V. lra.
  - apply (steady_glue _ (sqrt 1000)).
    + f_equal. apply V. lra.
    + assert (E : few 1000 = sqrt 1000).
      { unfold few. assert (0 < sqrt 1000) by (apply sqrt_lt_R0; lra). apply (Rmult_eq_reg_r (sqrt 1000)); [|lra]. rewrite sqrt_sqrt by lra. field. lra. }
      rewrite <- E at 1. apply (below_by _ few 1000 1); [apply Cf|lra|]. intros y Hy. f_equal. apply V. lra.
    + apply (above_by _ sqrt 1000 1); [apply sqrt_cont; lra|lra|]. intros y Hy. f_equal. apply V. lra.
  - destruct (Rlt_le_dec N 5000) as [L'|L'].
    + apply (steady_by _ sqrt N (Rmin (N - 1000) (5000 - N))); [apply sqrt_cont; lra|apply Rmin_pos; lra|].
      intros y Hy. apply Rabs_def2 in Hy. pose proof (Rmin_l (N - 1000) (5000 - N)). pose proof (Rmin_r (N - 1000) (5000 - N)). f_equal. apply V. lra.
    + apply (steady_by _ many N (N - 5000)); [apply Cm|lra|]. intros y Hy. apply Rabs_def2 in Hy. f_equal. apply V. lra.
Qed.

Definition damage_by_waves (H D T cot P rs rw cp cs r : R) (N : R) : num :=
  answer (VanderMeer1988.calculate_damage_number_S (Fin H) (Fin (r * H)) (Fin T) (Fin N) (Fin cot) (Fin P) (Fin rs) (Fin D) NaN (Fin cp) (Fin cs) (Fin rw)).
Theorem C87_storm_duration : forall H D T cot P rs rw cp cs r,
  0 < H -> 0 < D -> 0 < T -> 0 < cot -> 0 < P -> 0 < rw -> rw < rs -> 0 < cp -> 0 < cs -> 0 < r ->
  let f := damage_by_waves H D T cot P rs rw cp cs r in
  (forall N, 0 < N -> N <> 5000 -> steady f N)
  /\ exists S, 0 < S /\ step f 5000 S S (1.3 * (1 - exp (-(0.00031) * 5000)) * S)
     /\ S < 1.3 * (1 - exp (-(0.00031) * 5000)) * S.
Proof.
  intros H D T cot P rs rw cp cs r HH HD HT Hc HP Hrw Hrs Hcp Hcs Hr f.
  destruct (RockVdM.C43_damage_total H D T 1000 cot P rs rw cp cs r) as (S0 & HS0 & E); try assumption; [lra|].
  set (d := S0 / vdm_storm 1000) in *. assert (Hd : 0 < d) by (unfold d; pose proof (RockVdM.storm_pos 1000 ltac:(lra)); rpos).
  assert (V : forall N, 0 < N -> f N = Fin (d * vdm_storm N)).
  { intros N HN. unfold f, damage_by_waves, answer. pose proof (RockVdM.storm_pos N HN) as Q.
    rewrite (RockVdM.damage88 H D T N cot P rs rw cp cs r NaN HH HD HT HN Hc HP Hrw Hrs Hcp Hcs Hr (d * vdm_storm N)); [reflexivity|rpos|].
    replace (d * vdm_storm N / vdm_storm N) with d by (field; lra). exact E. }
  split.
  - intros N HN N5. destruct (storm_steady N HN N5) as (v & Ev & St). injection Ev as <-.
    exists (d * vdm_storm N). split; [apply V, HN|]. intros e He. destruct (St (e / d) ltac:(rpos)) as (q & Hq & G).
    exists (Rmin q N). split; [apply Rmin_pos; assumption|]. intros y Hy. pose proof (Rmin_l q N). pose proof (Rmin_r q N).
    destruct (G y ltac:(lra)) as (w & Ew & Hw). injection Ew as <-. apply Rabs_def2 in Hy.
    exists (d * vdm_storm y). split; [apply V; lra|]. replace (d * vdm_storm y - d * vdm_storm N) with (d * (vdm_storm y - vdm_storm N)) by ring.
    rewrite Rabs_mult, (Rabs_right d) by lra. apply (Rmult_lt_compat_l d) in Hw; [|exact Hd]. replace (d * (e / d)) with e in Hw by (field; lra). exact Hw.
  - exists (d * sqrt 5000). assert (0 < sqrt 5000) by (apply sqrt_lt_R0; lra). assert (HS : 0 < d * sqrt 5000) by rpos.
    pose proof exp_155_strict as L. split; [exact HS|]. split; [split; [|split; [|split]]|].
    + apply (below_by _ (fun n => d * sqrt n) 5000 1); [|lra|].
      * apply (continuity_pt_scal sqrt). apply sqrt_cont. lra.
      * intros y Hy. rewrite V by lra. f_equal. unfold vdm_storm. destruct (Rlt_dec y 1000); [lra|]. destruct (Rle_dec y 5000); [reflexivity|lra].
    + rewrite V by lra. f_equal. unfold vdm_storm. destruct (Rlt_dec 5000 1000); [lra|]. destruct (Rle_dec 5000 5000); [reflexivity|lra].
    + apply (above_by _ (fun n => 1.3 * (1 - exp (-(0.00031) * n)) * (d * sqrt 5000)) 5000 1); [reg|lra|].
      intros y Hy. rewrite V by lra. f_equal. unfold vdm_storm. destruct (Rlt_dec y 1000); [lra|]. destruct (Rle_dec y 5000); [lra|]. ring.
    + nra.
    + nra.
Qed.

(** The stones of Van der Meer as a function of the slope: steady, also where
    plunging turns into surging, but for one step: on 1:4 slopes the surging
    formula is given up, and if waves still surge there the stones become
    larger by a power of the ratio of the Iribarren number and its critical
    value. *)
Lemma steady_either f g h x r : 0 < r -> continuity_pt g x -> continuity_pt h x -> g x = h x ->
  (forall y, Rabs (y - x) < r -> f y = Fin (g y) \/ f y = Fin (h y)) -> steady f x.
Proof.
  intros Hr Cg Ch E V. exists (g x). split.
  { destruct (V x) as [->| ->]; [rewrite Rminus_diag_eq, Rabs_R0 by reflexivity; exact Hr|reflexivity|rewrite E; reflexivity]. }
  intros e He. destruct (cont_near g x Cg e He) as (d & Hd & G), (cont_near h x Ch e He) as (d' & Hd' & G').
  exists (Rmin r (Rmin d d')). split; [repeat apply Rmin_pos; assumption|]. intros y Hy.
  pose proof (Rmin_l r (Rmin d d')). pose proof (Rmin_r r (Rmin d d')). pose proof (Rmin_l d d'). pose proof (Rmin_r d d').
  destruct (V y ltac:(lra)) as [-> | ->]; eexists; (split; [reflexivity|]); [apply G; lra|rewrite E; apply G'; lra].
Qed.

Section Stones.
Variables (H T P rs rw cp cs r d : R).
Hypotheses (HH : 0 < H) (HT : 0 < T) (HP : 0 < P) (Hrw : 0 < rw) (Hrs : rw < rs) (Hcp : 0 < cp) (Hcs : 0 < cs) (Hr : 0 < r) (Hd : 0 < d).
Let De := buoyant rs rw.
Let X := fun c => iribarren g0 H T (1 / c).
Let Xc := fun c => xi_critical cp cs P c.
Let pl := fun c => r * H / De / vdm_plunging cp P (X c) d.
Let su := fun c => r * H / De / vdm_surging cs P c (X c) d.
Lemma De_pos' : 0 < De. Proof. apply buoyant_pos; assumption. Qed.
Lemma X_pos' c : 0 < c -> 0 < X c. Proof. intros. apply iribarren_pos; try apply g0_pos; try assumption. rpos. Qed.
Lemma inv_cont x : 0 < x -> continuity_pt (fun c => 1 / c) x.
Proof. intros. apply (continuity_pt_div (fun _ => 1) (fun c => c)); [apply const_cont|apply derivable_continuous_pt, derivable_pt_id|lra]. Qed.
Lemma X_cont x : 0 < x -> continuity_pt X x.
Proof.
  intros. unfold X, iribarren. unfold Rdiv at 1. apply (continuity_pt_mult (fun c => 1 / c) (fun _ => / sqrt (steepness g0 H T))); [apply inv_cont; assumption|apply const_cont].
Qed.
Lemma Xc_cont x : 0 < x -> continuity_pt Xc x.
Proof.
  intros. unfold Xc, xi_critical. apply cont_power.
  - apply (continuity_pt_scal (fun c => sqrt (1 / c))). apply (continuity_pt_comp (fun c => 1 / c) sqrt); [apply inv_cont; assumption|apply sqrt_cont; rpos].
  - assert (0 < sqrt (1 / x)) by (apply sqrt_lt_R0; rpos). assert (0 < Rpower P 0.31) by apply Rpower_pos. rpos.
Qed.
Lemma pl_pos c : 0 < c -> 0 < vdm_plunging cp P (X c) d.
Proof. intros. unfold vdm_plunging. pose proof (X_pos' c ltac:(assumption)) as Q. pose proof (sqrt_lt_R0 _ Q). pose proof (Rpower_pos P 0.18). pose proof (Rpower_pos d 0.2). rpos. Qed.
Lemma su_pos c : 0 < c -> 0 < vdm_surging cs P c (X c) d.
Proof. intros. unfold vdm_surging. pose proof (Rpower_pos (X c) P). pose proof (sqrt_lt_R0 c ltac:(assumption)). pose proof (Rpower_pos P (-(0.13))). pose proof (Rpower_pos d 0.2). rpos. Qed.
Lemma pl_cont x : 0 < x -> continuity_pt pl x.
Proof.
  intros Hx. pose proof (pl_pos x Hx). unfold pl. apply (continuity_pt_div (fun _ => r * H / De) (fun c => vdm_plunging cp P (X c) d)); [apply const_cont| |lra].
  unfold vdm_plunging. apply (continuity_pt_div (fun _ => cp * Rpower P 0.18 * Rpower d 0.2) (fun c => sqrt (X c))); [apply const_cont| |].
  - apply (continuity_pt_comp X sqrt); [apply X_cont, Hx|apply sqrt_cont, X_pos', Hx].
  - pose proof (sqrt_lt_R0 _ (X_pos' x Hx)). lra.
Qed.
Lemma su_cont x : 0 < x -> continuity_pt su x.
Proof.
  intros Hx. pose proof (su_pos x Hx). unfold su. apply (continuity_pt_div (fun _ => r * H / De) (fun c => vdm_surging cs P c (X c) d)); [apply const_cont| |lra].
  unfold vdm_surging. apply (continuity_pt_mult (fun c => cs * Rpower P (-(0.13)) * Rpower d 0.2 * sqrt c) (fun c => Rpower (X c) P)).
  - apply (continuity_pt_scal sqrt), sqrt_cont, Hx.
  - apply cont_power; [apply X_cont, Hx|apply X_pos', Hx].
Qed.
Lemma ratio c : 0 < c -> pl c = su c * Rpower (X c / Xc c) (P + 0.5).
Proof.
  intros Hc'. pose proof (X_pos' c Hc') as HX. pose proof De_pos'. pose proof (pl_pos c Hc'). pose proof (su_pos c Hc').
  assert (HXc : 0 < Xc c) by apply Rpower_pos.
  assert (M := regimes_meet cp cs P c Hcp Hcs HP Hc' d Hd). change (xc cp cs P c) with (Xc c) in M.
  unfold pl, su. apply (Rmult_eq_reg_r (vdm_plunging cp P (X c) d * vdm_surging cs P c (X c) d)); [|apply Rgt_not_eq; rpos].
  apply (Rmult_eq_reg_r (De / (r * H))); [|apply Rgt_not_eq; rpos].
  transitivity (vdm_surging cs P c (X c) d); [field; repeat split; lra|].
  transitivity (Rpower (X c / Xc c) (P + 0.5) * vdm_plunging cp P (X c) d); [|field; repeat split; lra].
  assert (0 < Rpower (X c / Xc c) (P + 0.5)) by apply Rpower_pos.
  unfold vdm_surging, vdm_plunging in *. set (A := cs * Rpower P (-(0.13)) * Rpower d 0.2 * sqrt c) in *. set (B := cp * Rpower P 0.18 * Rpower d 0.2) in *.
  assert (0 < sqrt (X c)) by (apply sqrt_lt_R0, HX). assert (0 < sqrt (Xc c)) by (apply sqrt_lt_R0, HXc).
  assert (EB : B = A * Rpower (Xc c) P * sqrt (Xc c)) by (rewrite <- M; field; lra).
  rewrite EB.
  replace (sqrt (Xc c)) with (Rpower (Xc c) 0.5) by (rewrite <- Rpower_sqrt by assumption; f_equal; lra).
  replace (sqrt (X c)) with (Rpower (X c) 0.5) by (rewrite <- Rpower_sqrt by assumption; f_equal; lra).
  assert (E1 : Rpower (X c / Xc c) (P + 0.5) = Rpower (X c) P * Rpower (X c) 0.5 / (Rpower (Xc c) P * Rpower (Xc c) 0.5)).
  { rewrite <- !Rpower_plus. unfold Rpower. rewrite ln_div by assumption.
    unfold Rdiv. rewrite <- exp_Ropp, <- exp_plus. f_equal. ring. }
  rewrite E1. pose proof (Rpower_pos (X c) 0.5). pose proof (Rpower_pos (Xc c) P). pose proof (Rpower_pos (Xc c) 0.5). field. lra.
Qed.

Lemma stones_by_slope (f : R -> num) :
  (forall c D, 0 < c -> 0 < D -> vdm cp cs P c (X c) De D H r d -> f c = Fin D) ->
  (forall c, 0 < c -> c <> 4 \/ X 4 <= Xc 4 -> steady f c)
  /\ (Xc 4 < X 4 -> exists steep gentle, 0 < steep < gentle /\ step f 4 steep gentle gentle /\ gentle = steep * Rpower (X 4 / Xc 4) (P + 0.5)).
Proof.
  intros V. pose proof De_pos' as HDe.
  assert (Vp : forall c, 0 < c -> X c < Xc c \/ 4 <= c -> f c = Fin (pl c)).
  { intros c Hc' Hpl. pose proof (pl_pos c Hc'). apply V; [exact Hc'|unfold pl; rpos|]. left. split; [exact Hpl|]. unfold pl. field. repeat split; lra. }
  assert (Vs : forall c, 0 < c < 4 -> Xc c <= X c -> f c = Fin (su c)).
  { intros c Hc' Hsu. pose proof (su_pos c ltac:(lra)). apply V; [lra|unfold su; rpos|]. right. split; [|unfold su; field; repeat split; lra].
    intros [L|L]; [unfold X, Xc in *|]; lra. }
  assert (Meet : forall c, 0 < c -> X c = Xc c -> pl c = su c).
  { intros c Hc' E. rewrite ratio by exact Hc'. rewrite E. replace (Xc c / Xc c) with 1 by (field; apply Rgt_not_eq, Rpower_pos).
    unfold Rpower. rewrite ln_1, Rmult_0_r, exp_0. ring. }
  split.
  - intros c Hc' Hcase. destruct (Rlt_le_dec 4 c) as [L4|L4].
    { apply (steady_by _ pl c (c - 4)); [apply pl_cont, Hc'|lra|]. intros y Hy. apply Rabs_def2 in Hy. apply Vp; lra. }
    destruct (Rtotal_order (X c) (Xc c)) as [L|[E|L]].
    + destruct (cont_below X Xc c (X_cont c Hc') (Xc_cont c Hc') L) as (q & Hq & G).
      apply (steady_by _ pl c (Rmin q c)); [apply pl_cont, Hc'|apply Rmin_pos; assumption|]. intros y Hy.
      pose proof (Rmin_l q c). pose proof (Rmin_r q c). assert (Hy' := Hy). apply Rabs_def2 in Hy'. apply Vp; [lra|]. left. apply G. lra.
    + apply (steady_either _ pl su c c Hc'); [apply pl_cont, Hc'|apply su_cont, Hc'|apply Meet; assumption|].
      intros y Hy. apply Rabs_def2 in Hy. destruct (Rlt_le_dec (X y) (Xc y)); [left; apply Vp; lra|].
      destruct (Rlt_le_dec y 4); [right; apply Vs; lra|left; apply Vp; lra].
    + assert (L4' : c < 4). { destruct (Rlt_le_dec c 4); [assumption|]. assert (c = 4) by lra. subst c. destruct Hcase; lra. }
      destruct (cont_below Xc X c (Xc_cont c Hc') (X_cont c Hc') L) as (q & Hq & G).
      apply (steady_by _ su c (Rmin q (Rmin c (4 - c)))); [apply su_cont, Hc'|repeat apply Rmin_pos; lra|]. intros y Hy.
      pose proof (Rmin_l q (Rmin c (4 - c))). pose proof (Rmin_r q (Rmin c (4 - c))). pose proof (Rmin_l c (4 - c)). pose proof (Rmin_r c (4 - c)).
      assert (Hy' := Hy). apply Rabs_def2 in Hy'. apply Vs; [lra|]. left. apply G. lra.
  - intros L. assert (H4 : 0 < 4) by lra. exists (su 4), (pl 4). assert (Hsu : 0 < su 4) by (pose proof (su_pos 4 H4); unfold su; rpos).
    assert (Hg : su 4 < pl 4).
    { rewrite ratio by lra. assert (1 < Rpower (X 4 / Xc 4) (P + 0.5)); [|nra].
      assert (0 < Xc 4) by apply Rpower_pos. assert (1 < X 4 / Xc 4). { apply (Rmult_lt_reg_r (Xc 4)); [assumption|]. replace (X 4 / Xc 4 * Xc 4) with (X 4) by (field; lra). lra. }
      rewrite <- (Rpower_O (X 4 / Xc 4)) by lra. apply Rpower_lt; lra. }
    split; [split; assumption|]. split; [split; [|split; [|split]]|apply ratio; lra].
    + destruct (cont_below Xc X 4 (Xc_cont 4 H4) (X_cont 4 H4) L) as (q & Hq & G).
      apply (below_by _ su 4 (Rmin q 4)); [apply su_cont, H4|apply Rmin_pos; lra|]. intros y Hy. pose proof (Rmin_l q 4). pose proof (Rmin_r q 4).
      apply Vs; [lra|]. left. apply G. rewrite Rabs_left; lra.
    + apply Vp; lra.
    + apply (above_by _ pl 4 1); [apply pl_cont, H4|lra|]. intros y Hy. apply Vp; lra.
    + lra.
Qed.
End Stones.

Theorem C87_stones_by_slope : forall H T N P rs rw cp cs r S,
  0 < H -> 0 < T -> 0 < N -> 0 < P -> 0 < rw -> rw < rs -> 0 < cp -> 0 < cs -> 0 < r -> 0 < S ->
  let X := fun c => iribarren g0 H T (1 / c) in
  let Xc := fun c => xi_critical cp cs P c in
  forall f, f = (fun c => answer (VanderMeer1988.calculate_nominal_rock_diameter_Dn50 (Fin H) (Fin (r * H)) (Fin T) (Fin N) (Fin c) (Fin P) (Fin rs) (Fin S) (Fin cp) (Fin cs) (Fin rw)))
         \/ f = (fun c => answer (VanderMeer1988Modified.calculate_nominal_rock_diameter_Dn50 (Fin H) (Fin (r * H)) (Fin T) (Fin N) (Fin c) (Fin P) (Fin rs) (Fin S) (Fin cp) (Fin cs) (Fin rw))) ->
  (forall c, 0 < c -> c <> 4 \/ X 4 <= Xc 4 -> steady f c)
  /\ (Xc 4 < X 4 -> exists steep gentle, 0 < steep < gentle /\ step f 4 steep gentle gentle /\ gentle = steep * Rpower (X 4 / Xc 4) (P + 0.5)).
Proof.
  intros H T N P rs rw cp cs r S HH HT HN HP Hrw Hrs Hcp Hcs Hr HS X Xc f [-> | ->].
  - pose proof (RockVdM.storm_pos N HN). apply (stones_by_slope H T P rs rw cp cs r (S / vdm_storm N)); try assumption; [rpos|].
    intros c D Hc HD E. unfold answer. rewrite (RockVdM.diameter88 H D T N c P rs rw cp cs r); try assumption. reflexivity.
  - assert (0 < sqrt N) by (apply sqrt_lt_R0, HN). apply (stones_by_slope H T P rs rw cp cs r (S / sqrt N)); try assumption; [rpos|].
    intros c D Hc HD E. unfold answer. rewrite (RockVdM.diameterM H D T N c P rs rw cp cs r); try assumption. reflexivity.
Qed.

(** The two notions exclude one another. *)
Theorem C87_steady_is_no_step : forall f x below here above, steady f x -> ~ step f x below here above.
Proof. intros. apply steady_no_step. assumption. Qed.

Example C87_example_wall :
  OvertoppingTAW2002.calculate_influence_crest_wall_gamma_v #45 = #1
  /\ OvertoppingTAW2002.calculate_influence_crest_wall_gamma_v #50 = #0.96.
Proof.
  split; unfold OvertoppingTAW2002.calculate_influence_crest_wall_gamma_v; nfin.
  - rewrite Rleb_true by lra. reflexivity.
  - rewrite Rleb_false by lra. nfin. f_equal. lra.
Qed.
Example C87_example_roughness :
  step (fun xi => RunupTAW2002.calculate_adjusted_influence_roughness_gamma_f #0.5 #1 (Fin xi)) 10 1 1 0.5
  /\ step (fun xi => RunupTAW2002.calculate_adjusted_influence_roughness_gamma_f #0.5 #0.75 (Fin xi)) 2.4 0.5 (0.5 + 0.3 / 8.2) (0.5 + 0.3 / 8.2).
Proof.
  split.
  - destruct (C87_roughness 0.5 1) as (S & _); [lra..|]. cbv zeta in S. replace (10 / 1) with 10 in S by lra.
    replace (0.5 + (1 - 0.5) * ((10 - 1.8) / 8.2)) with 1 in S by lra. exact S.
  - destruct (C87_roughness 0.5 0.75) as (_ & S & _); [lra..|]. specialize (S ltac:(lra)). cbv zeta in S. replace (1.8 / 0.75) with 2.4 in S by lra.
    replace (0.5 + (1 - 0.5) * ((2.4 - 1.8) / 8.2)) with (0.5 + 0.3 / 8.2) in S by lra. exact S.
Qed.
(** On a rough slope of 1:2 there is a period past which the run-up is suddenly halved. *)
Example C87_example_runup : exists T before, 0 < T /\ 0 < before
  /\ step (runup_by_period 1 1 1 0.5 2) T before before (before / 2).
Proof.
  assert (Hs : 0 < sqrt (2 * PI * 1 / g0)) by (apply sqrt_lt_R0; pose proof g0_pos; pose proof PI_RGT_0; rpos).
  set (T := 20 * sqrt (2 * PI * 1 / g0)). assert (HT : 0 < T) by (unfold T; lra).
  destruct (C87_runup_drops 1 1 1 0.5 2 T) as (b & a & Hab & S & E); try lra.
  - rewrite iribarren_linear by lra. unfold T. field. lra.
  - exists T, b. split; [exact HT|]. split; [lra|]. replace (b / 2) with a; [exact S|].
    replace (0.5 + (1 - 0.5) * ((10 / 1 - 1.8) / 8.2)) with 1 in E by lra. lra.
Qed.
(** Long waves on a 1:4 slope. *)
Example C87_example_stones : exists steep gentle, 0 < steep < gentle
  /\ step (fun c => answer (VanderMeer1988.calculate_nominal_rock_diameter_Dn50 #1 #1.4 #20 #2000 (Fin c) #0.5 #2650 #2 #6.2 #1 #1025)) 4 steep gentle gentle.
Proof.
  destruct (C87_stones_by_slope 1 20 2000 0.5 2650 1025 6.2 1 1.4 2) with (f := fun c => answer (VanderMeer1988.calculate_nominal_rock_diameter_Dn50 (Fin 1) (Fin (1.4 * 1)) (Fin 20) (Fin 2000) (Fin c) (Fin 0.5) (Fin 2650) (Fin 2) (Fin 6.2) (Fin 1) (Fin 1025))) as (_ & S); try lra; [left; reflexivity|].
  destruct S as (s & g & L & S & _).
  - unfold xi_critical. replace (1 / (0.5 + 0.5)) with 1 by lra. assert (Q : sqrt (1 / 4) = 1 / 2) by (replace (1 / 4) with (1 / 2 * (1 / 2)) by lra; apply sqrt_square; lra).
    rewrite Q. assert (0 < Rpower 0.5 0.31 < 1).
    { split; [apply Rpower_pos|]. rewrite <- (Rpower_O 0.5) by lra. unfold Rpower. apply exp_increasing.
      assert (ln 0.5 < 0) by (rewrite <- ln_1; apply ln_increasing; lra). lra. }
    rewrite Rpower_1 by lra. apply Rlt_trans with 3.1; [lra|].
    unfold iribarren, steepness, g0. pose proof PI_4. pose proof PI_RGT_0.
    assert (0 < 2 * PI * 1 / (9.81 * 20 ^ 2) < 0.08 * 0.08) by lra.
    assert (B : 0 < sqrt (2 * PI * 1 / (9.81 * 20 ^ 2)) < 0.08).
    { split; [apply sqrt_lt_R0; lra|]. rewrite <- (sqrt_square 0.08) by lra. apply sqrt_lt_1; lra. }
    set (q := sqrt (2 * PI * 1 / (9.81 * 20 ^ 2))) in *. clearbody q. apply (Rmult_lt_reg_r q); [lra|]. replace (1 / 4 / q * q) with (1 / 4) by (field; lra). lra.
  - exists s, g. split; [exact L|]. replace (1.4 * 1) with 1.4 in S by lra. exact S.
Qed.
Example C87_example_storm : exists S, 0 < S
  /\ step (damage_by_waves 1 1 8 2 0.4 2650 1025 6.2 1 1.4) 5000 S S (1.3 * (1 - exp (-1.55)) * S).
Proof.
  destruct (C87_storm_duration 1 1 8 2 0.4 2650 1025 6.2 1 1.4) as (_ & S & HS & St & _); try lra.
  exists S. split; [exact HS|]. replace (-(0.00031) * 5000) with (-1.55) in St by lra. exact St.
Qed.
Example C87_example_heel :
  fst (fst (fst (Goda1985.calculate_bearing_pressures #300 #5 #400 #100 #0 #10))) = #60
  /\ fst (fst (fst (Goda1985.calculate_bearing_pressures #300 #5 #800 #100 #0 #10))) = #100.
Proof.
  split.
  - rewrite CaissonGoda.bearing_value by lra. cbn [fst]. rewrite Rleb_true by lra. f_equal. lra.
  - rewrite CaissonGoda.bearing_value by lra. cbn [fst]. rewrite Rleb_true by lra. f_equal. lra.
Qed.
