(** Properties C38, C39, C40: the Hudson formula and its users. *)
From Coq Require Import Reals Lra Lia List Bool String ZArith.
From Verif.Lib Require Import Num Monad RTac NTac Str Table.
From Verif.Spec Require Import Waves Armour.
From Verif.Model Require Import CoreUtility CorePhysics Hudson1959 HudsonUnits.
From Verif.Proofs Require Import Core CheckTac.
Import ListNotations.
Open Scope R_scope.

Lemma mass_fin Hs rw rs KD c al : 0 < rw -> rw < rs -> 0 < KD -> 0 < c ->
  calculate_median_rock_mass_M50_no_damage (Fin Hs) (Fin rw) (Fin rs) (Fin KD) (Fin c) (Fin al)
  = Fin (rs * (al * Hs) ^ 3 / (KD * (rs / rw - 1) ^ 3 * c)).
Proof.
  intros. unfold calculate_median_rock_mass_M50_no_damage. rewrite Delta_fin by lra.
  pose proof (buoyant_pos rs rw). assert (0 < KD * buoyant rs rw ^ 3 * c) by rpos.
  nfin. f_equal. unfold buoyant. do 3 f_equal. ring.
Qed.

Lemma height_fin M rw rs KD c al : 0 < rw -> rw < rs -> 0 < KD -> 0 < c -> 0 < al -> 0 < M ->
  calculate_significant_wave_height_Hs_no_damage (Fin M) (Fin rw) (Fin rs) (Fin KD) (Fin c) (Fin al)
  = Fin (buoyant rs rw / al * Rpower (M * KD * c / rs) (1 / 3)).
Proof.
  intros. unfold calculate_significant_wave_height_Hs_no_damage. rewrite Delta_fin by lra.
  assert (0 < M * KD * c / rs) by rpos. nfin. reflexivity.
Qed.

Lemma hudson_inv Hs rw rs KD c al M : 0 < rw -> rw < rs -> 0 < KD -> 0 < c -> 0 < al -> 0 < Hs -> 0 < M ->
  hudson rs rw KD c (al * Hs) M ->
  buoyant rs rw / al * Rpower (M * KD * c / rs) (1 / 3) = Hs.
Proof.
  intros. unfold hudson in *. fold (buoyant rs rw) in *. pose proof (buoyant_pos rs rw).
  assert (0 < buoyant rs rw) by auto.
  assert (E : M * KD * c / rs = Rpower (al * Hs / buoyant rs rw) 3).
  { rewrite Rpower_3 by rpos. rewrite H6. field. repeat split; lra. }
  rewrite E, Rpower_cancel by (rpos || lra). field. split; lra.
Qed.

(** A pair of functions (unit mass, wave height) implements the Hudson
    relation: on every point of it each returns the other coordinate, and
    both are defined for every positive argument. *)
Definition implements_hudson (mass height : num -> num -> num -> num -> num -> num -> M num) : Prop :=
  (forall Hs rw rs KD c al m, 0 < rw -> rw < rs -> 0 < KD -> 0 < c -> 0 < al -> 0 < Hs -> 0 < m ->
     hudson rs rw KD c (al * Hs) m ->
     value (mass (Fin Hs) (Fin rw) (Fin rs) (Fin KD) (Fin c) (Fin al)) = Ok (Fin m)
     /\ value (height (Fin m) (Fin rw) (Fin rs) (Fin KD) (Fin c) (Fin al)) = Ok (Fin Hs))
  /\ (forall Hs rw rs KD c al, 0 < rw -> rw < rs -> 0 < KD -> 0 < c -> 0 < al -> 0 < Hs ->
     exists m, 0 < m /\ hudson rs rw KD c (al * Hs) m)
  /\ (forall m rw rs KD c al, 0 < rw -> rw < rs -> 0 < KD -> 0 < c -> 0 < al -> 0 < m ->
     exists Hs, 0 < Hs /\ hudson rs rw KD c (al * Hs) m).

Lemma implements_wrapper mass height :
  (forall a b c d e f, value (mass a b c d e f) = Ok (calculate_median_rock_mass_M50_no_damage a b c d e f)) ->
  (forall a b c d e f, value (height a b c d e f) = Ok (calculate_significant_wave_height_Hs_no_damage a b c d e f)) ->
  implements_hudson mass height.
Proof.
  intros Em Eh. split; [|split]; intros.
  - rewrite Em, Eh. rewrite mass_fin, height_fin by assumption. split.
    + unfold hudson in H6. rewrite H6. reflexivity.
    + do 2 f_equal. apply hudson_inv; assumption.
  - eexists; split; [|unfold hudson; reflexivity]. fold (buoyant rs rw).
    pose proof (buoyant_pos rs rw). rpos; auto.
  - exists (buoyant rs rw / al * Rpower (m * KD * c / rs) (1 / 3)).
    assert (0 < buoyant rs rw) by (apply buoyant_pos; assumption).
    split; [rpos|]. unfold hudson. fold (buoyant rs rw).
    set (q := m * KD * c / rs). assert (0 < q) by (unfold q; rpos).
    replace (al * (buoyant rs rw / al * Rpower q (1 / 3))) with (buoyant rs rw * Rpower q (1 / 3)) by (field; lra).
    rewrite Rpow_mult_distr, <- (Rpower_3 (Rpower q (1 / 3))) by rpos.
    rewrite Rpower_cancel by (assumption || lra). unfold q. field. repeat split; lra.
Qed.

Theorem C38_rock :
  implements_hudson (fun a b c d e f => ret (calculate_median_rock_mass_M50_no_damage a b c d e f))
                    (fun a b c d e f => ret (calculate_significant_wave_height_Hs_no_damage a b c d e f)).
Proof. apply implements_wrapper; reflexivity. Qed.
Theorem C38_accropode : implements_hudson accropode_unit_mass_M accropode_wave_height_Hs.
Proof.
  apply implements_wrapper; intros;
    unfold accropode_unit_mass_M, accropode_wave_height_Hs, accropode_check_validity_range; mchecks; reflexivity.
Qed.
Theorem C38_accropode2 : implements_hudson accropode2_unit_mass_M accropode2_wave_height_Hs.
Proof.
  apply implements_wrapper; intros;
    unfold accropode2_unit_mass_M, accropode2_wave_height_Hs, accropode2_check_validity_range; mchecks; reflexivity.
Qed.
Theorem C38_core_loc : implements_hudson core_loc_unit_mass_M core_loc_wave_height_Hs.
Proof. apply implements_wrapper; reflexivity. Qed.
Theorem C38_cubes : implements_hudson cubes_unit_mass_M cubes_wave_height_Hs.
Proof. apply implements_wrapper; reflexivity. Qed.
Theorem C38_cubipod : implements_hudson cubipod_unit_mass_M cubipod_wave_height_Hs.
Proof. apply implements_wrapper; reflexivity. Qed.
Theorem C38_tetrapod : implements_hudson tetrapod_unit_mass_M tetrapod_wave_height_Hs.
Proof. apply implements_wrapper; reflexivity. Qed.

(** ** Damage table *)
Lemma next_entry_step t p : forall q f, p < q -> (forall q' f', In (q', f') t -> q <= q') ->
  next_entry ((q, f) :: t) p f.
Proof.
  intros q f L H. exists q. split; [left; reflexivity|]. split; [assumption|].
  intros q' f' [E|I] _; [injection E as <- <-; lra|eauto].
Qed.
Lemma next_entry_skip t p q0 f0 f : q0 <= p -> next_entry t p f -> next_entry ((q0, f0) :: t) p f.
Proof.
  intros L (q & I & Lq & Hq). exists q. split; [right; assumption|]. split; [assumption|].
  intros q' f' [E|I'] L'; [injection E as <- <-; lra|eauto].
Qed.

Ltac in_all :=
  let H := fresh in
  intros ? ? H; simpl in H;
  repeat (destruct H as [H|H]; [injection H as <- <-; lra|]); contradiction.

(** The lookup as a function of an index into a real table. *)
Lemma lookup_correct tab t p :
  tab = map (fun e => Fin (snd e)) t ->
  map fst t = [0; 5; 10; 15; 20; 30; 40; 50; 100] ->
  p < 100 ->
  exists f, value (index tab (searchsorted_right percentages (Fin p))) = Ok (Fin f) /\ next_entry t p f.
Proof.
  intros -> Ht Hp.
  destruct t as [|[a0 f0] [|[a1 f1] [|[a2 f2] [|[a3 f3] [|[a4 f4] [|[a5 f5] [|[a6 f6] [|[a7 f7] [|[a8 f8] [|]]]]]]]]]];
    try discriminate Ht.
  injection Ht as -> -> -> -> -> -> -> -> ->.
  unfold percentages. cbn [searchsorted_right]. rewrite !nlt_fin.
  repeat match goal with
  | |- context [Rltb p ?q] => destruct (Rltb_spec p q);
      [ eexists; split; [reflexivity|];
        repeat first [ apply next_entry_step; [assumption|in_all]
                     | apply next_entry_skip; [lra|] ] | ]
  end.
  exfalso. lra.
Qed.

(** Every percentage below 100 (negative ones included) gets the factor of the
    next higher tabulated percentage. *)
Theorem C39_lookup_is_the_next_entry :
  forall p, p < 100 ->
    (exists f, value (lookup_table_damage_factors (Fin p) "rough") = Ok (Fin f) /\ next_entry spm_rough p f)
    /\ (exists f, value (lookup_table_damage_factors (Fin p) "smooth") = Ok (Fin f) /\ next_entry spm_smooth p f).
Proof.
  intros. split; apply lookup_correct; try reflexivity; assumption.
Qed.

Theorem C39_index_error_from_100 :
  forall p rock, 100 <= p -> (rock = "rough" \/ rock = "smooth")%string ->
    value (lookup_table_damage_factors (Fin p) rock) = Err IndexError.
Proof.
  intros p rock Hp Hr.
  assert (E : searchsorted_right percentages (Fin p) = 9%nat).
  { unfold percentages. cbn [searchsorted_right]. rewrite !nlt_fin.
    rewrite !Rltb_false by lra. reflexivity. }
  unfold lookup_table_damage_factors. rewrite E. destruct Hr as [->| ->]; reflexivity.
Qed.

Lemma next_entry_fun t p f f' :
  (forall q f f', In (q, f) t -> In (q, f') t -> f = f') ->
  next_entry t p f -> next_entry t p f' -> f = f'.
Proof.
  intros Hf (q & I & L & H) (q' & I' & L' & H').
  pose proof (H _ _ I' L'). pose proof (H' _ _ I L). assert (q = q') by lra. subst. eauto.
Qed.
Lemma next_entry_mono t p p' f f' :
  (forall q f q' f', In (q, f) t -> In (q', f') t -> q <= q' -> f <= f') ->
  next_entry t p f -> next_entry t p' f' -> p <= p' -> f <= f'.
Proof.
  intros Hm (q & I & L & H) (q' & I' & L' & H') Lp.
  eapply Hm; [exact I|exact I'|]. apply (H q' f'); [assumption|lra].
Qed.

Ltac table_cases :=
  intros;
  repeat match goal with
  | H : In _ _ |- _ => simpl in H; repeat (destruct H as [H|H]; [apply pair_equal_spec in H; destruct H|]); try contradiction
  end; lra.

Lemma rough_sorted : forall q f q' f', In (q, f) spm_rough -> In (q', f') spm_rough -> q <= q' -> f <= f'.
Proof. unfold spm_rough. table_cases. Qed.
Lemma smooth_sorted : forall q f q' f', In (q, f) spm_smooth -> In (q', f') spm_smooth -> q <= q' -> f <= f'.
Proof. unfold spm_smooth. table_cases. Qed.
Lemma rough_range q f : In (q, f) spm_rough -> 1 <= f <= 1.54.
Proof. unfold spm_rough. table_cases. Qed.
Lemma smooth_range q f : In (q, f) spm_smooth -> 1 <= f <= 1.56.
Proof. unfold spm_smooth. table_cases. Qed.

Theorem C39_monotone_and_bounded :
  forall p p', p <= p' -> p' < 100 ->
    exists r r' s s',
      value (lookup_table_damage_factors (Fin p) "rough") = Ok (Fin r)
      /\ value (lookup_table_damage_factors (Fin p') "rough") = Ok (Fin r')
      /\ value (lookup_table_damage_factors (Fin p) "smooth") = Ok (Fin s)
      /\ value (lookup_table_damage_factors (Fin p') "smooth") = Ok (Fin s')
      /\ 1 <= r <= r' /\ r' <= 1.54 /\ 1 <= s <= s' /\ s' <= 1.56.
Proof.
  intros p p' L Hp.
  destruct (C39_lookup_is_the_next_entry p ltac:(lra)) as ((r & Vr & Nr) & (s & Vs & Ns)).
  destruct (C39_lookup_is_the_next_entry p' Hp) as ((r' & Vr' & Nr') & (s' & Vs' & Ns')).
  exists r, r', s, s'. repeat (split; [assumption|]).
  pose proof (next_entry_mono _ _ _ _ _ rough_sorted Nr Nr' L).
  pose proof (next_entry_mono _ _ _ _ _ smooth_sorted Ns Ns' L).
  destruct Nr as (? & I1 & _), Nr' as (? & I2 & _), Ns as (? & I3 & _), Ns' as (? & I4 & _).
  apply rough_range in I1, I2. apply smooth_range in I3, I4. lra.
Qed.

(** At a tabulated percentage the factor of that percentage is not returned. *)
Theorem C39_tabulated_percentage_refuted :
  exists p f, In (p, f) spm_rough /\ value (lookup_table_damage_factors (Fin p) "rough") <> Ok (Fin f).
Proof.
  exists 10, 1.08. split; [simpl; auto|].
  destruct (C39_lookup_is_the_next_entry 10 ltac:(lra)) as ((r & Vr & Nr) & _).
  rewrite Vr. intros E. injection E as ->.
  assert (next_entry spm_rough 10 1.14).
  { unfold spm_rough. repeat first [ apply next_entry_step; [lra|in_all] | apply next_entry_skip; [lra|] ]. }
  assert (1.08 = 1.14); [|lra].
  revert Nr H. apply next_entry_fun. unfold spm_rough. table_cases.
Qed.

Theorem C39_unknown_rock_type :
  forall p rock, strip (lower rock) <> "rough"%string -> strip (lower rock) <> "smooth"%string ->
    value (lookup_table_damage_factors p rock) = Err ValueError.
Proof.
  intros. unfold lookup_table_damage_factors.
  rewrite (proj2 (String.eqb_neq _ _)), (proj2 (String.eqb_neq _ _)) by assumption. reflexivity.
Qed.

Theorem C39_case_and_space_ignored :
  forall p rock rock', strip (lower rock) = strip (lower rock') ->
    lookup_table_damage_factors p rock = lookup_table_damage_factors p rock'.
Proof. intros * E. unfold lookup_table_damage_factors. rewrite E. reflexivity. Qed.

(** With damage the pair is still an exact inverse, below 100 percent. *)
Theorem C38_rock_with_damage :
  forall Hs rw rs KD c al p rock, 0 < rw -> rw < rs -> 0 < KD -> 0 < c -> 0 < al -> 0 < Hs -> p < 100 ->
    (rock = "rough" \/ rock = "smooth")%string ->
    exists f m, 0 < m /\ 1 <= f <= 1.56
      /\ value (lookup_table_damage_factors (Fin p) rock) = Ok (Fin f)
      /\ hudson rs rw KD c (al * (Hs / f)) m
      /\ value (calculate_median_rock_mass_M50 (Fin Hs) (Fin rw) (Fin rs) (Fin KD) (Fin c) (Fin p) rock (Fin al))
         = Ok (Fin m)
      /\ value (calculate_significant_wave_height_Hs (Fin m) (Fin rw) (Fin rs) (Fin KD) (Fin c) (Fin p) rock (Fin al))
         = Ok (Fin Hs).
Proof.
  intros * Hrw Hrs HKD Hc Hal HHs Hp Hr.
  destruct (C39_monotone_and_bounded p p ltac:(lra) Hp) as (r & ? & s & ? & Vr & _ & Vs & _ & ? & ? & ? & ?).
  assert (Hf : exists f, 1 <= f <= 1.56 /\ value (lookup_table_damage_factors (Fin p) rock) = Ok (Fin f)).
  { destruct Hr as [->| ->]; [exists r|exists s]; split; try assumption; lra. }
  destruct Hf as (f & Hf & V).
  destruct C38_rock as (Hrel & Hex & _).
  destruct (Hex (Hs / f) rw rs KD c al) as (m & Hm & R); try assumption; [rpos|].
  destruct (Hrel (Hs / f) rw rs KD c al m) as (V1 & V2); try assumption; [rpos|].
  exists f, m. repeat (split; [assumption|]). split.
  - unfold calculate_median_rock_mass_M50. rewrite (value_bind_ok _ _ _ V).
    rewrite mass_fin by assumption. mval. nfin. do 2 f_equal.
    unfold hudson in R. rewrite R.
    fold (buoyant rs rw) in *. pose proof (buoyant_pos rs rw Hrw Hrs). field. repeat split; lra.
  - unfold calculate_significant_wave_height_Hs. rewrite (value_bind_ok _ _ _ V). mval.
    injection V2 as V2. rewrite V2. nfin. do 2 f_equal. field. lra.
Qed.

Theorem C38_mass_is_cubic :
  forall Hs rw rs KD c al l, 0 < rw -> rw < rs -> 0 < KD -> 0 < c -> 0 < l ->
    exists m, calculate_median_rock_mass_M50_no_damage (Fin Hs) (Fin rw) (Fin rs) (Fin KD) (Fin c) (Fin al) = Fin m
    /\ calculate_median_rock_mass_M50_no_damage (Fin (l * Hs)) (Fin rw) (Fin rs) (Fin KD) (Fin c) (Fin al) = Fin (l ^ 3 * m).
Proof.
  intros. rewrite !mass_fin by assumption. eexists; split; [reflexivity|]. f_equal.
  fold (buoyant rs rw). pose proof (buoyant_pos rs rw ltac:(assumption) ltac:(assumption)).
  field. repeat split; lra.
Qed.

Example C38_example :
  (exists m, 0 < m /\ value (tetrapod_unit_mass_M #4 #1025 #2400 #7 #1.5 #1) = Ok (Fin m)
    /\ value (tetrapod_wave_height_Hs (Fin m) #1025 #2400 #7 #1.5 #1) = Ok #4)%num.
Proof.
  destruct C38_tetrapod as (A & B & _).
  destruct (B 4 1025 2400 7 1.5 1) as (m & Hm & R); try lra.
  destruct (A 4 1025 2400 7 1.5 1 m); try lra; try assumption. exists m. auto.
Qed.

(** ** Stability coefficient from the seabed slope *)
Lemma piecewise_mono k0 k1 k2 s s' : k2 <= k1 <= k0 -> s <= s' ->
  piecewise k0 k1 k2 s' <= piecewise k0 k1 k2 s.
Proof.
  intros. unfold piecewise.
  destruct (Rlt_dec s 1), (Rlt_dec s' 1), (Rlt_dec s 5), (Rlt_dec s' 5), (Rlt_dec s 10), (Rlt_dec s' 10);
    nra.
Qed.
Lemma piecewise_bounds k0 k1 k2 s : k2 <= k1 <= k0 -> k2 <= piecewise k0 k1 k2 s <= k0.
Proof.
  intros. unfold piecewise.
  destruct (Rlt_dec s 1), (Rlt_dec s 5), (Rlt_dec s 10); nra.
Qed.

Lemma interp_fin k0 k1 k2 s :
  interp (Fin s) [(Fin 0, Fin k0); (Fin 1, Fin k0); (Fin 5, Fin k1); (Fin 10, Fin k2)]
  = Fin (piecewise k0 k1 k2 s).
Proof.
  unfold interp, piecewise. cbn [isnan interp_from]. rewrite !nlt_fin. unfold Rltb.
  destruct (Rlt_dec s 1), (Rlt_dec s 5), (Rlt_dec s 10), (Rlt_dec s 0); try (exfalso; lra); nfin;
    try reflexivity; f_equal; try field; lra.
Qed.

(** A KD function reads off the design curve, rounded down to a multiple of
    0.1, whatever the slope. *)
Definition follows_curve (KD : num -> M num) (k0 k1 k2 : R) : Prop :=
  forall s, exists k : Z,
    value (KD (Fin s)) = Ok (Fin (IZR k * 0.1))
    /\ IZR k * 0.1 <= piecewise k0 k1 k2 s < IZR k * 0.1 + 0.1.

Lemma KD_floor k0 k1 k2 s : exists k : Z,
    (nfloor (interp (Fin s) [(Fin 0, Fin k0); (Fin 1, Fin k0); (Fin 5, Fin k1); (Fin 10, Fin k2)] / #0.1) * #0.1)%num
    = Fin (IZR k * 0.1)
    /\ IZR k * 0.1 <= piecewise k0 k1 k2 s < IZR k * 0.1 + 0.1.
Proof.
  rewrite interp_fin. nfin. set (x := piecewise k0 k1 k2 s).
  exists (Int_part (x / 0.1)). split; [reflexivity|].
  pose proof (Rfloor_le (x / 0.1)). pose proof (Rfloor_gt (x / 0.1)). unfold Rfloor in *.
  assert (x / 0.1 * 0.1 = x) by (dec; field). lra.
Qed.

Theorem C40_KD_follows_the_design_curve :
  follows_curve accropode_KD_breaking 15 9.7 8
  /\ follows_curve accropode2_KD_breaking 16 10.66 9
  /\ follows_curve core_loc_KD_breaking 16 10.66 9.
Proof.
  split; [|split]; intros s.
  - unfold accropode_KD_breaking, accropode_check_validity_range. mchecks.
    destruct (KD_floor 15 9.7 8 s) as (k & E & B). exists k. rewrite E. auto.
  - unfold accropode2_KD_breaking, accropode2_check_validity_range. mchecks.
    destruct (KD_floor 16 10.66 9 s) as (k & E & B). exists k. rewrite E. auto.
  - unfold core_loc_KD_breaking, core_loc_check_validity_range. mchecks.
    destruct (KD_floor 16 10.66 9 s) as (k & E & B). exists k. rewrite E. auto.
Qed.

Lemma curve_mono KD k0 k1 k2 (K0 K2 : Z) : follows_curve KD k0 k1 k2 -> k2 <= k1 <= k0 ->
  k0 = IZR K0 * 0.1 -> k2 = IZR K2 * 0.1 ->
  forall s s', s <= s' -> exists a b, value (KD (Fin s)) = Ok (Fin a) /\ value (KD (Fin s')) = Ok (Fin b)
    /\ k2 <= b <= a /\ a <= k0.
Proof.
  intros HF Hk E0 E2 s s' L. destruct (HF s) as (k & V & B), (HF s') as (k' & V' & B').
  exists (IZR k * 0.1), (IZR k' * 0.1). repeat (split; [assumption|]).
  pose proof (piecewise_mono _ _ _ _ _ Hk L) as Hm.
  pose proof (piecewise_bounds k0 k1 k2 s Hk). pose proof (piecewise_bounds k0 k1 k2 s' Hk).
  assert (K2 <= k')%Z. { apply Z.lt_succ_r, lt_IZR. rewrite succ_IZR. lra. }
  assert (k' <= k)%Z. { apply Z.lt_succ_r, lt_IZR. rewrite succ_IZR. lra. }
  apply IZR_le in H1, H2. lra.
Qed.

Theorem C40_KD_decreases_and_is_bounded :
  forall s s', s <= s' ->
    (exists a b, value (accropode_KD_breaking (Fin s)) = Ok (Fin a)
        /\ value (accropode_KD_breaking (Fin s')) = Ok (Fin b) /\ 8 <= b <= a /\ a <= 15)
    /\ (exists a b, value (accropode2_KD_breaking (Fin s)) = Ok (Fin a)
        /\ value (accropode2_KD_breaking (Fin s')) = Ok (Fin b) /\ 9 <= b <= a /\ a <= 16)
    /\ (exists a b, value (core_loc_KD_breaking (Fin s)) = Ok (Fin a)
        /\ value (core_loc_KD_breaking (Fin s')) = Ok (Fin b) /\ 9 <= b <= a /\ a <= 16).
Proof.
  intros s s' L. destruct C40_KD_follows_the_design_curve as (A & B & C).
  split; [|split].
  - apply (curve_mono _ _ _ _ 150 80 A); lra.
  - apply (curve_mono _ _ _ _ 160 90 B); lra.
  - apply (curve_mono _ _ _ _ 160 90 C); lra.
Qed.

(** The coefficient for non-breaking waves is the one of a flat seabed under
    breaking waves. *)
Theorem C40_nonbreaking_is_the_flat_seabed_value :
  accropode_KD_nonbreaking = Fin 15 /\ accropode2_KD_nonbreaking = Fin 16 /\ core_loc_KD_nonbreaking = Fin 16
  /\ forall s, s <= 1 ->
     value (accropode_KD_breaking (Fin s)) = Ok accropode_KD_nonbreaking
     /\ value (accropode2_KD_breaking (Fin s)) = Ok accropode2_KD_nonbreaking
     /\ value (core_loc_KD_breaking (Fin s)) = Ok core_loc_KD_nonbreaking.
Proof.
  do 3 (split; [reflexivity|]). intros s L. destruct C40_KD_follows_the_design_curve as (A & B & C).
  assert (G : forall KD k0 k1 k2 K0, follows_curve KD k0 k1 k2 -> k0 = IZR K0 * 0.1 -> value (KD (Fin s)) = Ok (Fin k0)).
  { intros KD k0 k1 k2 K0 HF E0. destruct (HF s) as (k & V & Bd). rewrite V. do 2 f_equal.
    assert (Ep : piecewise k0 k1 k2 s = k0). { unfold piecewise. destruct (Rlt_dec s 1), (Rlt_dec s 5); try lra. assert (s = 1) by lra. subst. lra. }
    rewrite Ep in Bd. rewrite E0. do 2 f_equal.
    apply Z.le_antisymm; apply Z.lt_succ_r, lt_IZR; rewrite succ_IZR; lra. }
  split; [|split].
  - apply (G _ _ _ _ 150%Z A). lra.
  - apply (G _ _ _ _ 160%Z B). lra.
  - apply (G _ _ _ _ 160%Z C). lra.
Qed.

Theorem C40_missing_slope_gives_no_number :
  value (accropode_KD_breaking NaN) = Ok NaN
  /\ value (accropode2_KD_breaking NaN) = Ok NaN
  /\ value (core_loc_KD_breaking NaN) = Ok NaN.
Proof. repeat split. Qed.

Example C40_example : value (accropode2_KD_breaking #5)%num = Ok (Fin 10.6).
Proof.
  destruct C40_KD_follows_the_design_curve as (_ & B & _).
  destruct (B 5) as (k & V & K). rewrite V. do 2 f_equal.
  unfold piecewise in K. destruct (Rlt_dec 5 1), (Rlt_dec 5 5), (Rlt_dec 5 10); try lra.
  assert (k = 106)%Z; [|subst; lra].
  apply Z.le_antisymm; apply Z.lt_succ_r, lt_IZR; rewrite succ_IZR; lra.
Qed.

Example C39_example : (value (lookup_table_damage_factors #7 " Smooth ") = Ok #1.08)%num.
Proof.
  change (value (lookup_table_damage_factors (Fin 7) "smooth") = Ok (Fin 1.08)).
  destruct (C39_lookup_is_the_next_entry 7 ltac:(lra)) as (_ & (s & V & N)). rewrite V. do 2 f_equal.
  assert (next_entry spm_smooth 7 1.08).
  { unfold spm_smooth. repeat first [ apply next_entry_step; [lra|in_all] | apply next_entry_skip; [lra|] ]. }
  revert N H. apply next_entry_fun. unfold spm_smooth. table_cases.
Qed.
