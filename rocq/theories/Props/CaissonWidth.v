(** Property C81: the width at which a caisson becomes safe by Goda (1985), and the caissons that no width makes safe. *)
From Coq Require Import Reals Lra List Bool String Psatz.
From Verif.Lib Require Import Num Monad RTac NTac.
From Verif.Spec Require Import Waves Dispersion Caisson CaissonWidth Response.
From Verif.Model Require Import CoreUtility CorePhysics Numpy Goda1985.
From Verif.Proofs Require Import Core Dispersion Goda Loads.
From Verif.Props Require Import CaissonGoda ResponseGoda.
Import ListNotations.
Open Scope R_scope.

Lemma sliding_iff s sl FH mu w pu B : 0 < FH -> 0 < mu -> pu / 2 < w -> sl * FH = mu * (w * B - 0.5 * pu * B) ->
  (s <= sl <-> sliding_width s FH mu w pu <= B).
Proof.
  intros HF Hm Hw E. unfold sliding_width. set (a := mu * (w - pu / 2)). assert (Ha : 0 < a) by (apply Rmult_lt_0_compat; lra).
  replace (mu * (w * B - 0.5 * pu * B)) with (a * B) in E by (unfold a; dec; field).
  assert (Q : s * FH / a * a = s * FH) by (field; lra). split; intros L.
  - apply (Rmult_le_reg_r a); [assumption|]. rewrite Q, (Rmult_comm B), <- E. apply Rmult_le_compat_r; lra.
  - apply (Rmult_le_reg_r FH); [assumption|]. rewrite E, <- Q, (Rmult_comm a). apply Rmult_le_compat_r; lra.
Qed.

Lemma overturning_iff s ov MH frac w pu B : 0 < s -> 0 < MH -> 0 < B -> pu / 3 < frac * w ->
  ov * MH + 2 / 3 * (0.5 * pu * B) * B = w * B * (frac * B) ->
  (s <= ov <-> overturning_width s MH frac w pu <= B).
Proof.
  intros Hs HM HB Hw E. unfold overturning_width. set (a := frac * w - pu / 3). assert (Ha : 0 < a) by (unfold a; lra).
  assert (E' : ov * MH = a * (B * B)) by (unfold a; lra). clear E.
  assert (Q : s * MH / a * a = s * MH) by (field; lra).
  assert (0 < s * MH / a) by (apply Rdiv_lt_0_compat; [apply Rmult_lt_0_compat|]; assumption).
  rewrite <- (sqrt_square B) by lra. split; intros L.
  - apply sqrt_le_1_alt. apply (Rmult_le_reg_r a); [assumption|]. rewrite Q, (Rmult_comm (B * B)), <- E'. apply Rmult_le_compat_r; lra.
  - apply sqrt_le_0 in L; [|lra|apply Rmult_le_pos; lra].
    apply (Rmult_le_reg_r MH); [assumption|]. rewrite E', <- Q, (Rmult_comm a). apply Rmult_le_compat_r; lra.
Qed.

(** One sea and one cross section, whatever the width: the horizontal force, its moment and the uplift pressure do
    not depend on the width, and both safety factors reach any wanted value from a certain width on, or never. *)
Theorem C81_width : forall disper HD Hsi T beta h d cot rho hacc Rc above below mu frac g (B1 s0 : num),
  solves_dispersion disper ->
  0 < HD -> 0 <= Hsi -> 0 < T -> Rabs beta <= 90 -> 0 < h -> 0 < cot -> 0 < g -> 0 < rho ->
  0 < d <= h + Hsi * 5 / cot -> 0 < hacc <= h -> 0 <= Rc -> 0 < mu ->
  let w := column hacc Rc below above rho g in
  exists FH MH pu, 0 < FH /\ 0 < MH /\ (0 < pu < 1.1 * rho * g * HD /\ 0.3 * (1 - hacc / h) * rho * g * HD <= pu)
  /\ forall B, 0 < B -> exists FU MU p1 pe b sliding overturning,
    value (reactions_of disper (Fin HD) (Fin Hsi) (Fin T) (Fin beta) (Fin h) (Fin d) B1 (Fin cot) (Fin rho) (Fin hacc) (Fin Rc) (Fin B) (Fin above) (Fin below) s0 (Fin mu) (Fin frac) (Fin g))
    = Ok (Fin FH, FU, Fin MH, MU, p1, pe, Fin pu, b, Fin sliding, Fin overturning)
    /\ (w <= pu / 2 -> sliding <= 0) /\ (frac * w <= pu / 3 -> overturning <= 0)
    /\ forall s, 0 < s ->
      (pu / 2 < w -> (s <= sliding <-> sliding_width s FH mu w pu <= B))
      /\ (pu / 3 < frac * w -> (s <= overturning <-> overturning_width s MH frac w pu <= B)).
Proof.
  intros disper HD Hsi T beta h d cot rho hacc Rc above below mu frac g B1 s0 Hdis HHD HHs HT Hb Hh Hcot Hg Hrho Hd Ha HRc Hmu w.
  pose proof PI_RGT_0 as Hpi.
  destruct (Hdis (2 * PI / T) h g) as (k & Hk & Ed & Dk); [apply Rdiv_lt_0_compat; lra|lra|lra|].
  pose proof (alpha1_range k h Hk Hh) as R1. pose proof (alpha3_range k h hacc Hk Hh ltac:(lra)) as R3. pose proof (goda_cos_pos beta Hb) as Cp.
  pose proof (alpha2_nonneg (h + Hsi * 5 / cot) d HD ltac:(lra) Hd HHD) as R2.
  set (a1 := goda_alpha1 k h) in *. set (a3 := goda_alpha3 k h hacc) in *. set (a2 := goda_alpha2 (h + Hsi * 5 / cot) d HD) in *.
  set (p1 := goda_p1 beta a1 a2 rho g HD). set (pu := goda_pu beta a1 a3 rho g HD). set (eta := goda_eta beta HD).
  assert (G : 0 < rho * g * HD) by (repeat apply Rmult_lt_0_compat; assumption).
  assert (P1 : 0 < p1).
  { unfold p1, goda_p1. replace (0.5 * (1 + goda_cos beta) * (a1 + a2 * goda_cos beta ^ 2) * rho * g * HD) with (0.5 * (1 + goda_cos beta) * (a1 + a2 * goda_cos beta ^ 2) * (rho * g * HD)) by ring.
    assert (0 <= a2 * goda_cos beta ^ 2) by (apply Rmult_le_pos; [assumption|apply pow2_ge_0]).
    apply Rmult_lt_0_compat; [apply Rmult_lt_0_compat|]; lra. }
  assert (Pu : 0 < pu < 1.1 * rho * g * HD).
  { unfold pu, goda_pu. replace (0.5 * (1 + goda_cos beta) * a1 * a3 * rho * g * HD) with (0.5 * (1 + goda_cos beta) * (a1 * a3) * (rho * g * HD)) by ring.
    assert (A : 0 < a1 * a3) by (apply Rmult_lt_0_compat; lra). assert (A' : a1 * a3 <= a1 * 1) by (apply Rmult_le_compat_l; lra).
    assert (C : 0 < 0.5 * (1 + goda_cos beta) * (a1 * a3)) by (apply Rmult_lt_0_compat; lra).
    assert (C' : 0.5 * (1 + goda_cos beta) * (a1 * a3) <= 1 * (a1 * a3)) by (apply Rmult_le_compat_r; lra).
    split; [apply Rmult_lt_0_compat; assumption|]. replace (1.1 * rho * g * HD) with (1.1 * (rho * g * HD)) by ring. apply Rmult_lt_compat_r; lra. }
  assert (Pl : 0.3 * (1 - hacc / h) * rho * g * HD <= pu).
  { unfold pu, goda_pu. replace (0.5 * (1 + goda_cos beta) * a1 * a3 * rho * g * HD) with (0.5 * (1 + goda_cos beta) * (a1 * a3) * (rho * g * HD)) by ring.
    assert (Q : 0 <= hacc / h) by (apply Rlt_le, Rdiv_lt_0_compat; lra).
    assert (Q1 : hacc / h <= 1) by (apply (Rmult_le_reg_r h); [lra|]; replace (hacc / h * h) with hacc by (field; lra); lra).
    assert (A3 : 1 - hacc / h <= a3).
    { unfold a3, goda_alpha3. pose proof (cosh_gt_1 (k * h) ltac:(apply Rmult_lt_0_compat; lra)) as K1. assert (0 < 1 / cosh (k * h)) by (apply Rdiv_lt_0_compat; lra).
      assert (0 <= hacc / h * (1 / cosh (k * h))) by (apply Rmult_le_pos; lra). lra. }
    assert (A : 0.6 * (1 - hacc / h) <= a1 * a3) by (apply Rmult_le_compat; lra).
    assert (C : 0.5 * (a1 * a3) <= 0.5 * (1 + goda_cos beta) * (a1 * a3)) by (apply Rmult_le_compat_r; [apply Rmult_le_pos; lra|lra]).
    replace (0.3 * (1 - hacc / h) * rho * g * HD) with (0.3 * (1 - hacc / h) * (rho * g * HD)) by ring. apply Rmult_le_compat_r; lra. }
  assert (Eta : 0 < eta) by (unfold eta, goda_eta; apply Rmult_lt_0_compat; lra).
  assert (CF : 0 <= cut_force eta Rc). { pose proof (cut_force_eta eta eta Rc ltac:(lra) HRc). lra. }
  assert (CM : 0 <= cut_moment eta Rc). { pose proof (cut_moment_eta eta eta Rc ltac:(lra) HRc). lra. }
  set (FH := p1 * (0.5 * (1 + a3) * hacc + 0.5 * cut_force eta Rc)).
  set (MH := p1 * (1 / 6 * (2 + a3) * hacc ^ 2 + (0.5 * hacc * cut_force eta Rc + 1 / 6 * cut_moment eta Rc))).
  assert (FH0 : 0 < FH).
  { apply Rmult_lt_0_compat; [assumption|]. assert (0 < 0.5 * (1 + a3) * hacc) by (apply Rmult_lt_0_compat; lra). lra. }
  assert (MH0 : 0 < MH).
  { apply Rmult_lt_0_compat; [assumption|]. assert (0 < 1 / 6 * (2 + a3) * hacc ^ 2) by (apply Rmult_lt_0_compat; [lra|apply pow_lt; lra]).
    assert (0 <= 0.5 * hacc * cut_force eta Rc) by (apply Rmult_le_pos; lra). lra. }
  exists FH, MH, pu. split; [assumption|]. split; [assumption|]. split; [split; assumption|]. intros B HB.
  destruct (loads_value disper HD Hsi T beta h d cot rho hacc Rc B g k B1 s0) as (p2 & p4 & hc & hb & b & V & _); [lra..|assumption|].
  fold a1 a2 a3 in V. fold p1 pu eta in V. fold FH MH in V.
  pose proof (C35_reactions disper (Fin HD) (Fin Hsi) (Fin T) (Fin beta) (Fin h) (Fin d) B1 (Fin cot) (Fin rho) (Fin hacc) (Fin Rc) (Fin B) (Fin above) (Fin below) s0 (Fin mu) (Fin frac) (Fin g)) as R.
  rewrite V in R. destruct R as (pe & Me & We & te & sl & ov & W & EW & EB & ES & ER).
  rewrite C35_weight in EW. subst W. replace (caisson_weight hacc Rc B below above rho g) with (w * B) in * by (unfold caisson_weight, w, column; ring).
  rewrite nmul_fin in *. destruct (C35_safety (0.5 * pu * B) FH (w * B) mu (frac * B) MH (2 / 3 * (0.5 * pu * B) * B) FH0 MH0) as (sl1 & ov1 & E1 & I1 & J1 & _). rewrite ES in E1. injection E1 as -> ->.
  do 7 eexists. split; [exact ER|]. clear - I1 J1 FH0 MH0 HB Hmu. split; [|split].
  - intros L. apply Rnot_lt_le. intros N. assert (0 < sl1 * FH) by (apply Rmult_lt_0_compat; assumption).
    assert (0 <= mu * ((pu / 2 - w) * B)) by (apply Rmult_le_pos; [lra|apply Rmult_le_pos; lra]).
    replace (mu * (w * B - 0.5 * pu * B)) with (- (mu * ((pu / 2 - w) * B))) in I1 by (dec; field). lra.
  - intros L. apply Rnot_lt_le. intros N. assert (0 < ov1 * MH) by (apply Rmult_lt_0_compat; assumption).
    assert (0 <= (pu / 3 - frac * w) * (B * B)) by (apply Rmult_le_pos; [lra|apply Rmult_le_pos; lra]).
    replace (w * B * (frac * B)) with (2 / 3 * (0.5 * pu * B) * B - (pu / 3 - frac * w) * (B * B)) in J1 by (dec; field). lra.
  - intros s Hs. split; intros L; [apply sliding_iff|apply overturning_iff]; assumption.
Qed.

(** With the fill, friction and centre of gravity of the defaults.  A caisson heavy enough for its sea has one
    smallest width; one that is lighter can be kept from sliding but not from overturning, however wide. *)
Theorem C81_default : forall disper HD Hsi T beta h d cot rho hacc Rc g (B1 s0 : num),
  solves_dispersion disper ->
  0 < HD -> 0 <= Hsi -> 0 < T -> Rabs beta <= 90 -> 0 < h -> 0 < cot -> 0 < g -> 0 < rho ->
  0 < d <= h + Hsi * 5 / cot -> 0 < hacc <= h -> 0 <= Rc ->
  let w := column hacc Rc 2100 2400 rho g in
  exists FH MH pu, 0 < FH /\ 0 < MH /\ (0 < pu < 1.1 * rho * g * HD /\ 0.3 * (1 - hacc / h) * rho * g * HD <= pu)
  /\ forall B, 0 < B -> exists FU MU p1 pe b sliding overturning,
    value (reactions_of disper (Fin HD) (Fin Hsi) (Fin T) (Fin beta) (Fin h) (Fin d) B1 (Fin cot) (Fin rho) (Fin hacc) (Fin Rc) (Fin B)
             rho_fill_above_SWL_default rho_fill_below_SWL_default s0 muf_default tup_over_Bup_default (Fin g))
    = Ok (Fin FH, FU, Fin MH, MU, p1, pe, Fin pu, b, Fin sliding, Fin overturning)
    /\ (2 / 3 * pu < w -> forall s, 0 < s ->
          (s <= sliding /\ s <= overturning <-> Rmax (s * FH / (0.6 * (w - pu / 2))) (sqrt (s * MH / (w / 2 - pu / 3))) <= B))
    /\ (pu / 2 < w <= 2 / 3 * pu -> overturning <= 0 /\ forall s, 0 < s -> (s <= sliding <-> s * FH / (0.6 * (w - pu / 2)) <= B))
    /\ (w <= pu / 2 -> sliding <= 0 /\ overturning <= 0).
Proof.
  intros disper HD Hsi T beta h d cot rho hacc Rc g B1 s0 Hdis HHD HHs HT Hb Hh Hcot Hg Hrho Hd Ha HRc w.
  destruct (C81_width disper HD Hsi T beta h d cot rho hacc Rc 2400 2100 0.6 0.5 g B1 s0) as (FH & MH & pu & F0 & M0 & P0 & A); try assumption; try lra.
  exists FH, MH, pu. split; [assumption|]. split; [assumption|]. split; [assumption|]. intros B HB.
  destruct (A B HB) as (FU & MU & p1 & pe & b & sl & ov & V & N1 & N2 & K). fold w in N1, N2, K.
  exists FU, MU, p1, pe, b, sl, ov. split; [exact V|]. clear V A. unfold sliding_width, overturning_width in K.
  assert (E : 0.5 * w - pu / 3 = w / 2 - pu / 3) by (dec; field). split; [|split].
  - intros L s Hs. destruct (K s Hs) as [K1 K2]. rewrite E in K2. specialize (K1 ltac:(lra)). specialize (K2 ltac:(lra)).
    rewrite K1, K2. split; [intros [X Y]; apply Rmax_lub; assumption|intros X]. split; (eapply Rle_trans; [|exact X]); [apply Rmax_l|apply Rmax_r].
  - intros L. split; [apply N2; lra|]. intros s Hs. apply (proj1 (K s Hs)). lra.
  - intros L. split; [apply N1; lra|apply N2; lra].
Qed.

(** A caisson that weighs more than three quarters of a design wave height of water can always be made wide enough. *)
Theorem C81_heavy : forall disper HD Hsi T beta h d cot rho hacc Rc g (B1 s0 : num) s,
  solves_dispersion disper ->
  0 < HD -> 0 <= Hsi -> 0 < T -> Rabs beta <= 90 -> 0 < h -> 0 < cot -> 0 < g -> 0 < rho ->
  0 < d <= h + Hsi * 5 / cot -> 0 < hacc <= h -> 0 <= Rc -> 0 < s ->
  3 / 4 * rho * HD <= hacc * (2100 - rho) + Rc * 2400 ->
  exists Bmin, 0 < Bmin /\ forall B, 0 < B -> exists FH FU MH MU p1 pe pu b sliding overturning,
    value (reactions_of disper (Fin HD) (Fin Hsi) (Fin T) (Fin beta) (Fin h) (Fin d) B1 (Fin cot) (Fin rho) (Fin hacc) (Fin Rc) (Fin B)
             rho_fill_above_SWL_default rho_fill_below_SWL_default s0 muf_default tup_over_Bup_default (Fin g))
    = Ok (FH, FU, MH, MU, p1, pe, pu, b, Fin sliding, Fin overturning)
    /\ (s <= sliding /\ s <= overturning <-> Bmin <= B).
Proof.
  intros disper HD Hsi T beta h d cot rho hacc Rc g B1 s0 s Hdis HHD HHs HT Hb Hh Hcot Hg Hrho Hd Ha HRc Hs Hw.
  destruct (C81_default disper HD Hsi T beta h d cot rho hacc Rc g B1 s0) as (FH & MH & pu & F0 & M0 & P0 & A); try assumption.
  set (w := column hacc Rc 2100 2400 rho g) in *.
  assert (W : 2 / 3 * pu < w).
  { assert (L : 3 / 4 * rho * HD * g <= w) by (unfold w, column; apply Rmult_le_compat_r; lra).
    assert (0 < rho * HD * g) by (repeat apply Rmult_lt_0_compat; assumption). clear - L H P0. lra. }
  exists (Rmax (s * FH / (0.6 * (w - pu / 2))) (sqrt (s * MH / (w / 2 - pu / 3)))). split.
  { eapply Rlt_le_trans; [|apply Rmax_l]. apply Rdiv_lt_0_compat; [apply Rmult_lt_0_compat; assumption|]. apply Rmult_lt_0_compat; lra. }
  intros B HB. destruct (A B HB) as (FU & MU & p1 & pe & b & sl & ov & V & K & _).
  do 10 eexists. split; [exact V|]. exact (K W s Hs).
Qed.

(** One that is too light for its sea is never held by its weight, however wide it is made. *)
Theorem C81_light : forall disper HD Hsi T beta h d cot rho hacc Rc g (B1 s0 : num) B,
  solves_dispersion disper ->
  0 < HD -> 0 <= Hsi -> 0 < T -> Rabs beta <= 90 -> 0 < h -> 0 < cot -> 0 < g -> 0 < rho ->
  0 < d <= h + Hsi * 5 / cot -> 0 < hacc <= h -> 0 <= Rc -> 0 < B ->
  hacc * (2100 - rho) + Rc * 2400 <= 0.15 * (1 - hacc / h) * rho * HD ->
  exists FH FU MH MU p1 pe pu b sliding overturning,
    value (reactions_of disper (Fin HD) (Fin Hsi) (Fin T) (Fin beta) (Fin h) (Fin d) B1 (Fin cot) (Fin rho) (Fin hacc) (Fin Rc) (Fin B)
             rho_fill_above_SWL_default rho_fill_below_SWL_default s0 muf_default tup_over_Bup_default (Fin g))
    = Ok (FH, FU, MH, MU, p1, pe, pu, b, Fin sliding, Fin overturning)
    /\ sliding <= 0 /\ overturning <= 0.
Proof.
  intros disper HD Hsi T beta h d cot rho hacc Rc g B1 s0 B Hdis HHD HHs HT Hb Hh Hcot Hg Hrho Hd Ha HRc HB Hw.
  destruct (C81_default disper HD Hsi T beta h d cot rho hacc Rc g B1 s0) as (FH & MH & pu & F0 & M0 & [P0 P1] & A); try assumption.
  destruct (A B HB) as (FU & MU & p1 & pe & b & sl & ov & V & _ & _ & K). do 10 eexists. split; [exact V|]. apply K.
  unfold column. apply (Rmult_le_compat_r g) in Hw; [|lra]. replace (0.15 * (1 - hacc / h) * rho * HD * g) with (0.3 * (1 - hacc / h) * rho * g * HD / 2) in Hw by (dec; field; lra). lra.
Qed.

(** A caisson in 10 m of water in a design wave of 5 m. *)
Example C81_example : exists Bmin, 0 < Bmin /\ forall B, 0 < B -> exists FH FU MH MU p1 pe pu b sliding overturning,
    value (reactions_of exact_disper #5 #3 #10 #0 #10 #7 #5 #100 #1025 #8 #4 (Fin B)
             rho_fill_above_SWL_default rho_fill_below_SWL_default NaN muf_default tup_over_Bup_default (Fin g0))
    = Ok (FH, FU, MH, MU, p1, pe, pu, b, Fin sliding, Fin overturning)
    /\ (1.2 <= sliding /\ 1.2 <= overturning <-> Bmin <= B).
Proof.
  apply (C81_heavy exact_disper 5 3 10 0 10 7 100 1025 8 4 g0 #5 NaN 1.2 exact_disper_solves); try (rewrite ?Rabs_R0; pose proof g0_pos; lra).
Qed.

(** A slab of half a metre at the water line in the same sea. *)
Example C81_light_example : exists FH FU MH MU p1 pe pu b sliding overturning,
    value (reactions_of exact_disper #5 #3 #10 #0 #10 #7 #5 #100 #1025 #0.5 #0 #100
             rho_fill_above_SWL_default rho_fill_below_SWL_default NaN muf_default tup_over_Bup_default (Fin g0))
    = Ok (FH, FU, MH, MU, p1, pe, pu, b, Fin sliding, Fin overturning)
    /\ sliding <= 0 /\ overturning <= 0.
Proof.
  apply (C81_light exact_disper 5 3 10 0 10 7 100 1025 0.5 0 g0 #5 NaN 100 exact_disper_solves); try (rewrite ?Rabs_R0; pose proof g0_pos; lra).
Qed.
