(** Property C30: wave transmission of Briganti et al. (2003). *)
From Coq Require Import Reals Lra List Bool String.
From Verif.Lib Require Import Num Monad RTac NTac.
From Verif.Spec Require Import Waves Ranges Transmission.
From Verif.Model Require Import CoreUtility CorePhysics Numpy DAngremond1996 Briganti2003.
From Verif.Proofs Require Import Core CheckTac Warns.
From Verif.Props Require Import TransDAngremond.
Import ListNotations.
Open Scope R_scope.

Notation Kt := Briganti2003.calculate_wave_transmission_Kt.

Lemma checks_br a b : value (Briganti2003.check_validity a b) = Ok tt.
Proof. unfold Briganti2003.check_validity. mchecks. reflexivity. Qed.

(** Narrow crests: exactly the value of D'Angremond et al. for permeable
    structures; the upper limit never acts. *)
Theorem C30_narrow_crest_is_DAngremond : forall H T h Rc B c b,
  0 < H -> 0 < T -> 0 < B -> c <> 0 -> B < 10 * H ->
  value (Kt (Fin H) (Fin T) (Fin Rc) (Fin B) (Fin c))
  = value (calculate_wave_transmission_Kt_permeable (Fin H) (Fin T) h (Fin Rc) (Fin B) (Fin c) C1_permeable b).
Proof.
  intros H T h Rc B c b HH HT HB Hc HR. unfold Kt. cbv zeta.
  assert (HBH : 0 < B / H < 10).
  { split; [rpos|]. apply Rmult_lt_reg_r with H; [assumption|]. unfold Rdiv. rewrite Rmult_assoc, Rinv_l by lra. lra. }
  nfin. rewrite Rltb_true by lra. mval. unfold C1_permeable. rewrite !C29_formula by assumption. mval.
  nfin. rewrite checks_br. mval. do 2 f_equal.
  pose proof (clip_range 0.075 0.8 (dangremond 0.64 H Rc B (iribarren g0 H T (1 / c))) ltac:(lra)).
  set (k := clip _ _ _) in *. unfold Rmax, Rmin. repeat destruct Rle_dec; lra.
Qed.

(** Wide crests: the published formula, its upper limit, and the floor 0.05
    (which wins when the limit itself falls below it). *)
Theorem C30_wide_crest : forall H T Rc B c,
  0 < H -> 0 < T -> 0 < B -> c <> 0 -> 10 * H <= B ->
  value (Kt (Fin H) (Fin T) (Fin Rc) (Fin B) (Fin c))
  = Ok (Fin (clip 0.05 (briganti_limit H B) (briganti_wide H Rc B (iribarren g0 H T (1 / c))))).
Proof.
  intros H T Rc B c HH HT HB Hc HR. unfold Kt. cbv zeta.
  assert (HBH : 10 <= B / H).
  { apply Rmult_le_reg_r with H; [assumption|]. unfold Rdiv. rewrite Rmult_assoc, Rinv_l by lra. lra. }
  rewrite iribarren_fin by assumption.
  nfin. rewrite Rltb_false by lra. mval. nfin. rewrite checks_br. mval. do 2 f_equal.
  unfold clip, briganti_limit, briganti_wide. rewrite Rmin_comm. f_equal. f_equal; lra.
Qed.

Theorem C30_between_limits : forall H T Rc B c, 0 < H -> 0 < T -> 0 < B -> c <> 0 ->
  exists K, 0.05 <= K <= 0.93 /\ value (Kt (Fin H) (Fin T) (Fin Rc) (Fin B) (Fin c)) = Ok (Fin K)
            /\ (0.05 < K -> K <= briganti_limit H B).
Proof.
  intros H T Rc B c HH HT HB Hc. destruct (Rlt_le_dec B (10 * H)) as [HR|HR].
  - destruct (C29_between_limits 0.64 H T NaN Rc B c false HH HT HB Hc) as (K & HK & E).
    exists K. split; [lra|]. split.
    + rewrite (C30_narrow_crest_is_DAngremond H T NaN Rc B c false) by assumption. exact E.
    + intros _. unfold briganti_limit. assert (B / H < 10); [|lra].
      apply Rmult_lt_reg_r with H; [assumption|]. unfold Rdiv. rewrite Rmult_assoc, Rinv_l by lra. lra.
  - eexists. split; [|split; [apply C30_wide_crest; assumption|]];
    set (x := briganti_wide _ _ _ _);
    assert (10 <= B / H) by (apply Rmult_le_reg_r with H; [assumption|]; unfold Rdiv; rewrite Rmult_assoc, Rinv_l by lra; lra);
    unfold clip, briganti_limit, Rmax, Rmin; repeat destruct Rle_dec; lra.
Qed.

Theorem C30_decreasing_in_freeboard : forall H T Rc1 Rc2 B c K1 K2,
  0 < H -> 0 < T -> 0 < B -> c <> 0 -> Rc1 <= Rc2 ->
  value (Kt (Fin H) (Fin T) (Fin Rc1) (Fin B) (Fin c)) = Ok (Fin K1) ->
  value (Kt (Fin H) (Fin T) (Fin Rc2) (Fin B) (Fin c)) = Ok (Fin K2) -> K2 <= K1.
Proof.
  intros H T Rc1 Rc2 B c K1 K2 HH HT HB Hc HR. destruct (Rlt_le_dec B (10 * H)) as [HB'|HB'].
  - rewrite !(C30_narrow_crest_is_DAngremond _ _ NaN _ _ _ true) by assumption.
    intros E1 E2. eapply C29_decreasing_in_freeboard; [| | | |exact HR|exact E1|exact E2]; assumption.
  - rewrite !C30_wide_crest by assumption. intros [= <-] [= <-]. apply clip_mono. unfold briganti_wide.
    assert (Rc1 / H <= Rc2 / H) by (apply Rmult_le_compat_r; [left; rpos|assumption]). lra.
Qed.

Theorem C30_wide_crest_decreasing_in_width : forall H T Rc B1 B2 c K1 K2,
  0 < H -> 0 < T -> 0 < c -> 10 * H <= B1 -> B1 <= B2 ->
  value (Kt (Fin H) (Fin T) (Fin Rc) (Fin B1) (Fin c)) = Ok (Fin K1) ->
  value (Kt (Fin H) (Fin T) (Fin Rc) (Fin B2) (Fin c)) = Ok (Fin K2) -> K2 <= K1.
Proof.
  intros H T Rc B1 B2 c K1 K2 HH HT Hc HB HR. rewrite !C30_wide_crest by (assumption || lra). intros [= <-] [= <-].
  assert (Hx : 0 < iribarren g0 H T (1 / c)) by (apply iribarren_pos; auto; rpos).
  pose proof (damped_pos 0.41 _ ltac:(lra) Hx) as Hd.
  assert (HD : B1 / H <= B2 / H) by (apply Rmult_le_compat_r; [left; rpos|assumption]).
  assert (HP : Rpower (B2 / H) (-(0.65)) <= Rpower (B1 / H) (-(0.65))).
  { destruct HR as [HR| <-]; [|right; reflexivity]. left. apply Rpower_lt_base_neg; [lra|rpos|].
    apply Rmult_lt_compat_r; [rpos|assumption]. }
  unfold clip. apply Rle_max_compat_l.
  assert (Hw : briganti_wide H Rc B2 (iribarren g0 H T (1 / c)) <= briganti_wide H Rc B1 (iribarren g0 H T (1 / c))).
  { unfold briganti_wide. apply Rplus_le_compat_l. apply Rmult_le_compat_r; [lra|]. apply Rmult_le_compat_l; lra. }
  unfold briganti_limit, Rmin. repeat destruct Rle_dec; lra.
Qed.

(** Over all widths the coefficient does not decrease: for a crest deep under
    water it jumps up from 0.8 to 0.87 where the formulas meet. *)
Theorem C30_decreasing_in_width_refuted :
  exists H T Rc B1 B2 c K1 K2, 0 < H /\ 0 < T /\ 0 < c /\ 0 < B1 < B2
  /\ value (Kt (Fin H) (Fin T) (Fin Rc) (Fin B1) (Fin c)) = Ok (Fin K1)
  /\ value (Kt (Fin H) (Fin T) (Fin Rc) (Fin B2) (Fin c)) = Ok (Fin K2)
  /\ K1 < K2.
Proof.
  exists 1, 5, (-3), 9, 10, 2, 0.8, 0.87.
  assert (Hx : 0 < iribarren g0 1 5 (1 / 2)) by (apply iribarren_pos; auto; lra).
  repeat split; try lra.
  - rewrite (C30_narrow_crest_is_DAngremond _ _ NaN _ _ _ true) by lra. unfold C1_permeable. rewrite C29_formula by lra.
    do 2 f_equal. pose proof (damped_pos 0.5 _ ltac:(lra) Hx) as Hd.
    pose proof (Rpower_pos (9 / 1) (-(0.31))).
    assert (0 <= 0.64 * Rpower (9 / 1) (-(0.31)) * (1 - exp (-(0.5) * iribarren g0 1 5 (1 / 2)))).
    { apply Rmult_le_pos; lra. }
    unfold clip, dangremond, Rmax, Rmin. repeat destruct Rle_dec; lra.
  - rewrite C30_wide_crest by lra.
    do 2 f_equal. pose proof (damped_pos 0.41 _ ltac:(lra) Hx) as Hd.
    pose proof (Rpower_pos (10 / 1) (-(0.65))).
    assert (0 <= 0.51 * Rpower (10 / 1) (-(0.65)) * (1 - exp (-(0.41) * iribarren g0 1 5 (1 / 2)))).
    { apply Rmult_le_pos; lra. }
    unfold clip, briganti_wide, briganti_limit, Rmax, Rmin. repeat destruct Rle_dec; lra.
Qed.

(** Warnings are about steepness and Iribarren number only. *)
Theorem C30_warnings : forall H T Rc B c, 0 < H -> 0 < T -> c <> 0 ->
  flagged
    [ Range "Wave steepness s0p" "Briganti (2003)" (steepness g0 H T) 0.005 0.07;
      Range "Surf similarity parameter ksi_0p" "Briganti (2003)" (iribarren g0 H T (1 / c)) 0.5 10 ]
    (warns (Kt (Fin H) (Fin T) (Fin Rc) (Fin B) (Fin c))).
Proof.
  intros H T Rc B c HH HT Hc. unfold Kt, check_validity, g_default. cbv zeta. fold g0.
  rewrite iribarren_fin, steepness_fin by auto.
  destruct (_ <? _)%num; [unfold calculate_wave_transmission_Kt_permeable|]; flags.
Qed.

(** Arrays: the scalar function, element by element. *)
Lemma mapM_ok {A B} (f : A -> M B) g l :
  (forall x, In x l -> value (f x) = Ok (g x)) -> value (mapM f l) = Ok (map g l).
Proof.
  induction l as [|x l IH]; intros H; [reflexivity|]. cbn [mapM map]. mval.
  rewrite H by (left; reflexivity). mval. rewrite IH by (intros; apply H; right; assumption). reflexivity.
Qed.

Theorem C30_array_is_elementwise :
  forall l, l <> [] ->
  (forall H T Rc B c, In (H, T, Rc, B, c) l -> 0 < H /\ 0 < T /\ 0 < B /\ c <> 0) ->
  exists ks,
  value (calculate_wave_transmission_Kt_array
           (map (fun '(H, T, Rc, B, c) => (Fin H, Fin T, Fin Rc, Fin B, Fin c)) l)) = Ok (map Fin ks)
  /\ Forall2 (fun '(H, T, Rc, B, c) k =>
                value (Kt (Fin H) (Fin T) (Fin Rc) (Fin B) (Fin c)) = Ok (Fin k)) l ks.
Proof.
  intros l Hne Hl.
  assert (HK : exists ks, Forall2 (fun '(H, T, Rc, B, c) k =>
                value (Kt (Fin H) (Fin T) (Fin Rc) (Fin B) (Fin c)) = Ok (Fin k)) l ks).
  { clear Hne. induction l as [|((((H, T), Rc), B), c) l IH].
    - exists []. constructor.
    - destruct IH as [ks Hks]; [intros; eapply Hl; right; eassumption|].
      destruct (Hl H T Rc B c) as (? & ? & ? & ?); [left; reflexivity|].
      destruct (C30_between_limits H T Rc B c) as (K & _ & E & _); try assumption.
      exists (K :: ks). constructor; assumption. }
  destruct HK as [ks Hks]. exists ks. split; [|exact Hks].
  set (f := fun '(Hsi, Tpi, Rc, B, cot_alpha) => (Kt <- Kt Hsi Tpi Rc B cot_alpha ;; ret (PyFloat Kt))) .
  assert (HM : value (mapM f (map (fun '(H, T, Rc, B, c) => (Fin H, Fin T, Fin Rc, Fin B, Fin c)) l)) = Ok (map (fun k => PyFloat (Fin k)) ks)).
  { clear Hne Hl. induction Hks as [|((((H, T), Rc), B), c) k l ks E _ IH]; [reflexivity|].
    cbn [map mapM]. mval. unfold f at 1. mval. rewrite E. mval. rewrite IH. reflexivity. }
  assert (HN : value (mapM number_of (map (fun k => PyFloat (Fin k)) ks)) = Ok (map Fin ks)).
  { clear. induction ks; [reflexivity|]. cbn [map mapM]. mval. cbn [number_of]. mval. rewrite IHks. reflexivity. }
  destruct Hks as [|((((H, T), Rc), B), c) k l ks E Hks]; [congruence|].
  unfold calculate_wave_transmission_Kt_array. fold f. unfold vectorize. cbn [map] in *.
  mval. unfold f at 1. mval. rewrite E. mval. rewrite HM. mval. rewrite HN. reflexivity.
Qed.

Theorem C30_empty_array_fails : value (calculate_wave_transmission_Kt_array []) = Err ValueError.
Proof. reflexivity. Qed.

(** A crest 150 wave heights wide: the upper limit is 0.03, the floor wins. *)
Example C30_example : forall T c, 0 < T -> 0 < c ->
  value (Kt (Fin 1) (Fin T) (Fin (-1)) (Fin 150) (Fin c)) = Ok (Fin 0.05).
Proof.
  intros. rewrite C30_wide_crest by lra. do 2 f_equal. set (x := briganti_wide _ _ _ _).
  unfold clip, briganti_limit, Rmax, Rmin. repeat destruct Rle_dec; lra.
Qed.
