(** Property C32: wave transmission of Van Gent et al. (2023). *)
From Coq Require Import Reals Lra List Bool String.
From Verif.Lib Require Import Num Monad RTac NTac.
From Verif.Spec Require Import Waves Ranges Dispersion Transmission.
From Verif.Model Require Import CoreUtility CorePhysics VanGent2023.
From Verif.Proofs Require Import Core CheckTac Warns Dispersion.
Import ListNotations.
Open Scope R_scope.

Notation Kt := calculate_wave_transmission_Kt.

Lemma depth_pos : 0 < bottomless.
Proof. apply pow_lt. lra. Qed.
Lemma very_deep_fin : very_deep = Fin bottomless.
Proof. reflexivity. Qed.

Lemma tanh_neg x : tanh (- x) = - tanh x.
Proof.
  unfold tanh, sinh, cosh. rewrite Ropp_involutive. pose proof (exp_pos x). pose proof (exp_pos (- x)). field. lra.
Qed.

Lemma deep_fin d T : solves_dispersion d -> 0 < T ->
  exists k, 0 < k /\ dispersion (2 * PI / T) bottomless g0 k
    /\ deep_wavelength d (Fin T) = Fin (2 * PI / k).
Proof.
  intros Hd HT. unfold deep_wavelength, g_default. rewrite very_deep_fin. fold g0.
  assert (Hw : 0 < 2 * PI / T) by rpos.
  destruct (Hd (2 * PI / T) bottomless g0 Hw depth_pos g0_pos) as (k & Hk & E & D).
  exists k. repeat split; try assumption. unfold local_wavelength, two_pi. nfin. rewrite E. nfin. reflexivity.
Qed.

Lemma coefficients_of s : coefficients (bw_name s)
  = ret (Fin (bw_swing s), Fin 3.1, Fin 0.75, (match s with Impermeable => Fin 0 | Permeable => Fin (-(0.25)) | _ => Fin (-(0.15)) end), Fin (bw_middle s)).
Proof. destruct s; reflexivity. Qed.
Lemma coefficients_shift s : (match s with Impermeable => Fin 0 | Permeable => Fin (-(0.25)) | _ => Fin (-(0.15)) end) = Fin (bw_shift s).
Proof. destruct s; reflexivity. Qed.

(** For each of the five types, the published formula; the wavelength is the
    one of linear wave theory for a depth of 1e100 m, and depends on the period
    only. *)
Theorem C32_formula : forall d T, solves_dispersion d -> 0 < T ->
  exists k, 0 < k /\ dispersion (2 * PI / T) bottomless g0 k /\
  forall s H Rc B, H <> 0 -> 0 < B ->
  value (Kt d (Fin H) (Fin T) (Fin Rc) (Fin B) (bw_name s)) = Ok (Fin (vangent2023 s H Rc B (2 * PI / k))).
Proof.
  intros d T Hd HT. destruct (deep_fin d T Hd HT) as (k & Hk & D & E).
  exists k. repeat split; try assumption. intros s H Rc B HH HB.
  unfold Kt. rewrite coefficients_of, coefficients_shift, E. mval.
  assert (0 < 2 * PI / k) by rpos. assert (0 < B / (2 * PI / k)) by (apply Rdiv_lt_0_compat; assumption).
  set (L := 2 * PI / k) in *. nfin. unfold vangent2023. rewrite tanh_neg. do 2 f_equal. ring.
Qed.

Theorem C32_no_width : forall d T, solves_dispersion d -> 0 < T ->
  forall s H Rc, H <> 0 ->
  value (Kt d (Fin H) (Fin T) (Fin Rc) (Fin 0) (bw_name s))
  = Ok (Fin (bw_middle s - bw_swing s * tanh (Rc / H + bw_shift s))).
Proof.
  intros d T Hd HT. destruct (deep_fin d T Hd HT) as (k & Hk & D & E).
  intros s H Rc HH. unfold Kt. rewrite coefficients_of, coefficients_shift, E. mval.
  assert (0 < 2 * PI / k) by rpos. set (L := 2 * PI / k) in *. nfin.
  replace (0 / L) with 0 by (field; lra). rewrite npow_0_pos by lra. nfin. rewrite tanh_neg.
  replace (Rc / H + 3.1 * 0 + bw_shift s) with (Rc / H + bw_shift s) by lra. do 2 f_equal. ring.
Qed.

Lemma tanh_abs x : -1 < tanh x < 1.
Proof. split; [|apply tanh_lt_1]. pose proof (tanh_lt_1 (- x)). rewrite tanh_neg in *. lra. Qed.

(** Strictly between the asymptotes, hence between 0 and 1. *)
Theorem C32_between_asymptotes : forall d s H T Rc B, solves_dispersion d -> 0 < T -> H <> 0 -> 0 < B ->
  exists K, value (Kt d (Fin H) (Fin T) (Fin Rc) (Fin B) (bw_name s)) = Ok (Fin K)
  /\ bw_middle s - bw_swing s < K < bw_middle s + bw_swing s /\ 0.03 < K < 0.97.
Proof.
  intros d s H T Rc B Hd HT HH HB. destruct (C32_formula d T Hd HT) as (k & Hk & D & E).
  eexists. split; [apply E; assumption|]. unfold vangent2023.
  pose proof (tanh_abs (Rc / H + 3.1 * Rpower (B / (2 * PI / k)) 0.75 + bw_shift s)).
  set (t := tanh _) in *. destruct s; cbn [bw_middle bw_swing]; lra.
Qed.

Theorem C32_decreasing_in_freeboard : forall d s H T Rc1 Rc2 B K1 K2, solves_dispersion d ->
  0 < T -> 0 < H -> 0 < B -> Rc1 < Rc2 ->
  value (Kt d (Fin H) (Fin T) (Fin Rc1) (Fin B) (bw_name s)) = Ok (Fin K1) ->
  value (Kt d (Fin H) (Fin T) (Fin Rc2) (Fin B) (bw_name s)) = Ok (Fin K2) -> K2 < K1.
Proof.
  intros d s H T Rc1 Rc2 B K1 K2 Hd HT HH HB HR. destruct (C32_formula d T Hd HT) as (k & Hk & D & E).
  rewrite !E by lra. intros [= <-] [= <-]. unfold vangent2023.
  assert (Rc1 / H < Rc2 / H) by (apply Rmult_lt_compat_r; [rpos|assumption]).
  set (w := 3.1 * _). assert (Ht : tanh (Rc1 / H + w + bw_shift s) < tanh (Rc2 / H + w + bw_shift s)) by (apply tanh_lt; lra).
  assert (0 < bw_swing s) by (destruct s; cbn [bw_swing]; lra).
  apply Rplus_lt_compat_l, Ropp_lt_contravar, Rmult_lt_compat_l; assumption.
Qed.

Theorem C32_decreasing_in_width : forall d s H T Rc B1 B2 K1 K2, solves_dispersion d ->
  0 < T -> 0 < H -> 0 < B1 -> B1 < B2 ->
  value (Kt d (Fin H) (Fin T) (Fin Rc) (Fin B1) (bw_name s)) = Ok (Fin K1) ->
  value (Kt d (Fin H) (Fin T) (Fin Rc) (Fin B2) (bw_name s)) = Ok (Fin K2) -> K2 < K1.
Proof.
  intros d s H T Rc B1 B2 K1 K2 Hd HT HH HB HR. destruct (C32_formula d T Hd HT) as (k & Hk & D & E).
  rewrite !E by lra. intros [= <-] [= <-]. unfold vangent2023.
  assert (HL : 0 < 2 * PI / k) by rpos. set (L := 2 * PI / k) in *.
  assert (HP : Rpower (B1 / L) 0.75 < Rpower (B2 / L) 0.75).
  { apply Rpower_lt_base; [lra|rpos|]. apply Rmult_lt_compat_r; [rpos|assumption]. }
  assert (Ht : tanh (Rc / H + 3.1 * Rpower (B1 / L) 0.75 + bw_shift s)
               < tanh (Rc / H + 3.1 * Rpower (B2 / L) 0.75 + bw_shift s)) by (apply tanh_lt; lra).
  assert (0 < bw_swing s) by (destruct s; cbn [bw_swing]; lra).
  apply Rplus_lt_compat_l, Ropp_lt_contravar, Rmult_lt_compat_l; assumption.
Qed.

(** A screen under a perforated deck lowers the transmission, and a perforated
    screen lies in between. *)
Theorem C32_screens_reduce_transmission : forall d H T Rc B K0 K1 K2, solves_dispersion d ->
  0 < T -> 0 < H -> 0 < B ->
  value (Kt d (Fin H) (Fin T) (Fin Rc) (Fin B) "perforated") = Ok (Fin K0) ->
  value (Kt d (Fin H) (Fin T) (Fin Rc) (Fin B) "perforated_with_perforated_screen") = Ok (Fin K1) ->
  value (Kt d (Fin H) (Fin T) (Fin Rc) (Fin B) "perforated_with_screen") = Ok (Fin K2) ->
  K2 < K1 < K0.
Proof.
  intros d H T Rc B K0 K1 K2 Hd HT HH HB. destruct (C32_formula d T Hd HT) as (k & Hk & D & E).
  change "perforated"%string with (bw_name Perforated).
  change "perforated_with_perforated_screen"%string with (bw_name PerforatedPerforatedScreen).
  change "perforated_with_screen"%string with (bw_name PerforatedScreen).
  rewrite !E by lra. intros [= <-] [= <-] [= <-]. unfold vangent2023. cbn [bw_middle bw_swing bw_shift].
  pose proof (tanh_abs (Rc / H + 3.1 * Rpower (B / (2 * PI / k)) 0.75 + - (0.15))). lra.
Qed.

(** Lengths scaled by [l]: nothing depends on the scale of the wave height and
    freeboard alone. *)
Theorem C32_depends_on_relative_freeboard : forall d s l H T Rc B, solves_dispersion d ->
  0 < T -> H <> 0 -> 0 < B -> l <> 0 ->
  value (Kt d (Fin (l * H)) (Fin T) (Fin (l * Rc)) (Fin B) (bw_name s))
  = value (Kt d (Fin H) (Fin T) (Fin Rc) (Fin B) (bw_name s)).
Proof.
  intros d s l H T Rc B Hd HT HH HB Hl. destruct (C32_formula d T Hd HT) as (k & Hk & D & E).
  rewrite !E by (try assumption; apply Rmult_integral_contrapositive; auto). unfold vangent2023.
  replace (l * Rc / (l * H)) with (Rc / H) by (field; auto). reflexivity.
Qed.

(** Any other name is refused, whatever the numbers. *)
Theorem C32_unknown_type : forall d name H T Rc B, (forall s, name <> bw_name s) ->
  value (Kt d H T Rc B name) = Err ValueError.
Proof.
  intros d name H T Rc B Hn. unfold Kt, coefficients.
  repeat match goal with
  | |- context [String.eqb name ?x] =>
      let s := match x with
        | "impermeable"%string => constr:(Impermeable) | "permeable"%string => constr:(Permeable)
        | "perforated"%string => constr:(Perforated) | "perforated_with_screen"%string => constr:(PerforatedScreen)
        | "perforated_with_perforated_screen"%string => constr:(PerforatedPerforatedScreen) end in
      destruct (String.eqb_spec name x); [exfalso; apply (Hn s); assumption|]
  end.
  reflexivity.
Qed.

(** The function never checks its validity range... *)
Theorem C32_no_warnings : forall d name H T Rc B, warns (Kt d H T Rc B name) = [].
Proof.
  intros. unfold Kt, coefficients. repeat match goal with |- context [String.eqb name ?x] => destruct (String.eqb name x) end; reflexivity.
Qed.

(** ... although the module can: permeable structures may emerge by up to 2.5
    wave heights, the others must be submerged. *)
Theorem C32_range_check : forall d name T, solves_dispersion d -> 0 < T ->
  exists k, 0 < k /\ dispersion (2 * PI / T) bottomless g0 k /\
  forall H Rc B, H <> 0 ->
  flagged
    [ Range "Dimensionless crest height Rc / Hm0" "Van Gent et al. (2023)" (Rc / H) (-(2.5))
        (if string_dec name "permeable" then 2.5 else 0);
      Range "Dimensionless crest width B / Lm-1,0" "Van Gent et al. (2023)" (B / (2 * PI / k)) 0.017 0.27;
      Range "Dimensionless crest width B / Hm0" "Van Gent et al. (2023)" (B / H) 0.9 10.6 ]
    (warns (check_validity_range d (Fin H) (Fin T) (Fin Rc) (Fin B) name)).
Proof.
  intros d name T Hd HT. destruct (deep_fin d T Hd HT) as (k & Hk & D & E).
  exists k. repeat split; try assumption. intros H Rc B HH.
  assert (0 < 2 * PI / k) by rpos.
  unfold check_validity_range. rewrite E. rewrite <- (bind_ret_r (_ ;; _)).
  destruct (String.eqb_spec name "permeable"), (string_dec name "permeable"); try contradiction; nfin; flags.
Qed.

(** Impermeable structure, infinitely thin, crest at the water level. *)
Example C32_example : forall d T, solves_dispersion d -> 0 < T ->
  value (Kt d (Fin 2) (Fin T) (Fin 0) (Fin 0) "impermeable") = Ok (Fin 0.5).
Proof.
  intros d T Hd HT. change "impermeable"%string with (bw_name Impermeable).
  rewrite (C32_no_width d T Hd HT Impermeable 2 0) by lra. do 2 f_equal.
  cbn [bw_middle bw_swing bw_shift]. replace (0 / 2 + 0) with 0 by lra.
  assert (tanh 0 = 0) by (unfold tanh, sinh, cosh; rewrite Ropp_0, exp_0; field). lra.
Qed.
