(** Checking dimensions: an expression on another scale is its value times a power of the scales. *)
From Coq Require Import Reals Lra Lia Bool ZArith String List.
From Verif.Lib Require Import Num Monad RTac NTac.
From Verif.Spec Require Import Similarity.
From Verif.Model Require Import CoreUtility CorePhysics.
Import ListNotations.
Open Scope R_scope.

(** ** Scaling and the operations *)
Section Scaled.
Variable k : R.
Hypothesis K : 0 < k.

Lemma Rltb_scale a b : Rltb (k * a) (k * b) = Rltb a b.
Proof.
  destruct (Rlt_dec a b) as [H|H].
  - rewrite (Rltb_true a b H), Rltb_true; [reflexivity|apply Rmult_lt_compat_l; assumption].
  - rewrite (Rltb_false a b), Rltb_false; [reflexivity| |lra]. apply Rnot_lt_le in H. apply Rmult_le_compat_l; lra.
Qed.
Lemma Reqb_scale a b : Reqb (k * a) (k * b) = Reqb a b.
Proof.
  destruct (Req_EM_T a b) as [->|H]; [rewrite !Reqb_true; reflexivity|]. rewrite (Reqb_false a b H), Reqb_false; [reflexivity|].
  intros E. apply H. apply (Rmult_eq_reg_l k); lra.
Qed.
Lemma Rltb_scale0 a : Rltb 0 (k * a) = Rltb 0 a. Proof. rewrite <- (Rmult_0_r k) at 1. apply Rltb_scale. Qed.
Lemma Rltb_scale1 a : Rltb (k * a) 0 = Rltb a 0. Proof. rewrite <- (Rmult_0_r k) at 1. apply Rltb_scale. Qed.
Lemma Reqb_scale0 a : Reqb (k * a) 0 = Reqb a 0. Proof. rewrite <- (Rmult_0_r k) at 1. apply Reqb_scale. Qed.

Lemma scaled_lt x y : nlt (scaled k x) (scaled k y) = nlt x y.
Proof. destruct x, y; cbn; try reflexivity. apply Rltb_scale. Qed.
Lemma scaled_eqb x y : neqb (scaled k x) (scaled k y) = neqb x y.
Proof. destruct x, y; cbn; try reflexivity. apply Reqb_scale. Qed.
Lemma scaled_nan x : isnan (scaled k x) = isnan x. Proof. destruct x; reflexivity. Qed.
Lemma scaled_neg x : nneg (scaled k x) = scaled k (nneg x).
Proof. destruct x; cbn; try reflexivity. f_equal. ring. Qed.
Lemma scaled_abs x : nabs (scaled k x) = scaled k (nabs x).
Proof. destruct x; cbn; try reflexivity. rewrite Rabs_mult, (Rabs_right k) by lra. reflexivity. Qed.
Lemma scaled_add x y : nadd (scaled k x) (scaled k y) = scaled k (nadd x y).
Proof. destruct x, y; cbn; try reflexivity. f_equal. ring. Qed.
Lemma scaled_sqrt x : nsqrt (scaled k x) = scaled (sqrt k) (nsqrt x).
Proof.
  destruct x; cbn; try reflexivity. rewrite Rltb_scale1. destruct (Rltb r 0) eqn:E; [reflexivity|]. cbn. f_equal. apply sqrt_mult_alt. lra.
Qed.
Lemma scaled_min x y : nmin (scaled k x) (scaled k y) = scaled k (nmin x y).
Proof. unfold nmin. rewrite !scaled_nan, scaled_lt. destruct (_ || _)%bool; [reflexivity|]. destruct (nlt y x); reflexivity. Qed.
Lemma scaled_max x y : nmax (scaled k x) (scaled k y) = scaled k (nmax x y).
Proof. unfold nmax. rewrite !scaled_nan, scaled_lt. destruct (_ || _)%bool; [reflexivity|]. destruct (nlt x y); reflexivity. Qed.
Lemma inf_mul_scale b a : inf_mul b (k * a) = inf_mul b a.
Proof. unfold inf_mul. rewrite Reqb_scale0, Rltb_scale0. reflexivity. Qed.
Lemma inf_mul_scaled b a : scaled k (inf_mul b a) = inf_mul b a.
Proof. unfold inf_mul. destruct (Reqb a 0); [reflexivity|]. destruct (Bool.eqb b (Rltb 0 a)); reflexivity. Qed.
Lemma scaled_pow x e : npow (scaled k x) (Fin e) = scaled (Rpower k e) (npow x (Fin e)).
Proof.
  assert (Z : forall a, e = 0 -> Fin a = scaled (Rpower k e) (Fin a)) by (intros a ->; cbn; rewrite Rpower_O by assumption; f_equal; ring).
  assert (O : Fin 0 = scaled (Rpower k e) (Fin 0)) by (cbn; f_equal; ring).
  destruct x; cbn [npow scaled].
  - rewrite Rltb_scale0, Reqb_scale0. destruct (Rltb_spec 0 r) as [H|H].
    + cbn. f_equal. symmetry. apply Rpower_mult_distr; assumption.
    + destruct (Reqb_spec r 0) as [->|H0].
      * destruct (Reqb_spec e 0) as [E|E]; [apply Z, E|]. destruct (Rltb 0 e); [exact O|reflexivity].
      * destruct (is_int e) eqn:I; [|reflexivity]. unfold is_int in I. destruct (Reqb_spec e (IZR (Int_part e))) as [E|]; [|discriminate].
        set (z := Int_part e) in *. clearbody z. subst e. cbn. f_equal. rewrite powerRZ_mult. f_equal. apply powerRZ_Rpower. exact K.
  - destruct (Reqb_spec e 0) as [E|E]; [apply Z, E|]. destruct (Rltb 0 e); [reflexivity|exact O].
  - destruct (Reqb_spec e 0) as [E|E]; [apply Z, E|]. destruct (Rltb 0 e); [destruct (_ && _)%bool; reflexivity|exact O].
  - destruct (Reqb_spec e 0) as [E|E]; [apply Z, E|reflexivity].
Qed.
End Scaled.

Lemma scaled_1 x : scaled 1 x = x. Proof. destruct x; cbn; try reflexivity. f_equal. ring. Qed.
Lemma scaled_mul k k' x y : 0 < k -> 0 < k' -> nmul (scaled k x) (scaled k' y) = scaled (k * k') (nmul x y).
Proof.
  intros K K'. assert (KK : 0 < k * k') by (apply Rmult_lt_0_compat; assumption).
  destruct x, y; cbn; rewrite ?inf_mul_scale, ?inf_mul_scaled by assumption; try reflexivity. f_equal. ring.
Qed.
Lemma scaled_div k k' x y : 0 < k -> 0 < k' -> ndiv (scaled k x) (scaled k' y) = scaled (k / k') (ndiv x y).
Proof.
  intros K K'. assert (KK : 0 < k / k') by (apply Rdiv_lt_0_compat; assumption).
  destruct x as [a| | |], y as [b| | |]; cbn; try reflexivity; try (f_equal; ring);
    rewrite ?Reqb_scale0, ?Rltb_scale0, ?Rltb_scale1 by assumption; try (destruct (Rltb b 0); reflexivity).
  destruct (Reqb_spec b 0) as [_|B].
  - destruct (Reqb a 0); [reflexivity|]. destruct (Rltb 0 a); reflexivity.
  - cbn. f_equal. field. split; lra.
Qed.

(** ** Dimensions: powers of the length scale and the density scale *)
Section Like.
Variables l d : R.
Hypotheses (L : 0 < l) (D : 0 < d).

Definition fac (p q : R) : R := Rpower l p * Rpower d q.
Definition sc (p q : R) (x : num) : num := scaled (fac p q) x.
Definition like (p q : R) (x' x : num) : Prop := x' = sc p q x.

Lemma fac_pos p q : 0 < fac p q. Proof. apply Rmult_lt_0_compat; apply exp_pos. Qed.
Lemma fac_0 : fac 0 0 = 1. Proof. unfold fac. rewrite !Rpower_O by assumption. ring. Qed.
Lemma fac_mul p q p' q' : fac p q * fac p' q' = fac (p + p') (q + q').
Proof. unfold fac. rewrite !Rpower_plus. ring. Qed.
Lemma fac_div p q p' q' : fac p q / fac p' q' = fac (p - p') (q - q').
Proof. unfold fac, Rminus. rewrite !Rpower_plus, !Rpower_Ropp. field. split; apply Rgt_not_eq, exp_pos. Qed.
Lemma fac_pow p q e : Rpower (fac p q) e = fac (p * e) (q * e).
Proof. unfold fac. rewrite <- Rpower_mult_distr by apply exp_pos. rewrite !Rpower_mult. reflexivity. Qed.
Lemma fac_sqrt p q : sqrt (fac p q) = fac (p / 2) (q / 2).
Proof. rewrite <- Rpower_sqrt by apply fac_pos. rewrite fac_pow. reflexivity. Qed.

Lemma like_sc p q x : like p q (sc p q x) x. Proof. reflexivity. Qed.
Lemma like_eq p q p' q' x' x : like p' q' x' x -> p = p' -> q = q' -> like p q x' x. Proof. intros H -> ->. exact H. Qed.
Lemma like_same x : like 0 0 x x. Proof. unfold like, sc. rewrite fac_0, scaled_1. reflexivity. Qed.
Lemma like_0 x' x : like 0 0 x' x -> x' = x. Proof. intros ->. symmetry. apply like_same. Qed.
Lemma like_zero p q : like p q (Fin 0) (Fin 0). Proof. unfold like, sc. cbn. f_equal. ring. Qed.
Lemma like_neg p q x' x : like p q x' x -> like p q (nneg x') (nneg x). Proof. intros ->. apply scaled_neg. Qed.
Lemma like_abs p q x' x : like p q x' x -> like p q (nabs x') (nabs x). Proof. intros ->. apply scaled_abs, fac_pos. Qed.
Lemma like_add p q x' x y' y p' q' : like p q x' x -> like p' q' y' y -> p' = p -> q' = q -> like p q (nadd x' y') (nadd x y).
Proof. intros -> -> -> ->. apply scaled_add. Qed.
Lemma like_sub p q x' x y' y p' q' : like p q x' x -> like p' q' y' y -> p' = p -> q' = q -> like p q (nsub x' y') (nsub x y).
Proof. intros A B E E'. exact (like_add _ _ _ _ _ _ _ _ A (like_neg _ _ _ _ B) E E'). Qed.
Lemma like_mul p q x' x y' y p' q' : like p q x' x -> like p' q' y' y -> like (p + p') (q + q') (nmul x' y') (nmul x y).
Proof. intros -> ->. unfold like, sc. rewrite scaled_mul by apply fac_pos. rewrite fac_mul. reflexivity. Qed.
Lemma like_div p q x' x y' y p' q' : like p q x' x -> like p' q' y' y -> like (p - p') (q - q') (ndiv x' y') (ndiv x y).
Proof. intros -> ->. unfold like, sc. rewrite scaled_div by apply fac_pos. rewrite fac_div. reflexivity. Qed.
Lemma like_sqrt p q x' x : like p q x' x -> like (p / 2) (q / 2) (nsqrt x') (nsqrt x).
Proof. intros ->. unfold like, sc. rewrite scaled_sqrt by apply fac_pos. rewrite fac_sqrt. reflexivity. Qed.
Lemma like_pow p q x' x y' e : like p q x' x -> y' = Fin e -> like (p * e) (q * e) (npow x' y') (npow x (Fin e)).
Proof. intros -> ->. unfold like, sc. rewrite scaled_pow by apply fac_pos. rewrite fac_pow. reflexivity. Qed.
Lemma like_min p q x' x y' y p' q' : like p q x' x -> like p' q' y' y -> p' = p -> q' = q -> like p q (nmin x' y') (nmin x y).
Proof. intros -> -> -> ->. apply scaled_min, fac_pos. Qed.
Lemma like_max p q x' x y' y p' q' : like p q x' x -> like p' q' y' y -> p' = p -> q' = q -> like p q (nmax x' y') (nmax x y).
Proof. intros -> -> -> ->. apply scaled_max, fac_pos. Qed.
Lemma like_if p q (b' b : bool) x' x y' y p' q' : b' = b -> like p q x' x -> like p' q' y' y -> p' = p -> q' = q -> like p q (if b' then x' else y') (if b then x else y).
Proof. intros -> A B -> ->. destruct b; assumption. Qed.
(** A function of numbers without dimension *)
Lemma like_fun (f : num -> num) p q x' x : like p q x' x -> p = 0 -> q = 0 -> like 0 0 (f x') (f x).
Proof. intros A -> ->. rewrite (like_0 _ _ A). apply like_same. Qed.
Lemma like_fun2 (f : num -> num -> num) p q p' q' x' x y' y : like p q x' x -> like p' q' y' y -> p = 0 -> q = 0 -> p' = 0 -> q' = 0 -> like 0 0 (f x' y') (f x y).
Proof. intros A B -> -> -> ->. rewrite (like_0 _ _ A), (like_0 _ _ B). apply like_same. Qed.

Lemma same_lt p q x' x y' y p' q' : like p q x' x -> like p' q' y' y -> p' = p -> q' = q -> nlt x' y' = nlt x y.
Proof. intros -> -> -> ->. apply scaled_lt, fac_pos. Qed.
Lemma same_eqb p q x' x y' y p' q' : like p q x' x -> like p' q' y' y -> p' = p -> q' = q -> neqb x' y' = neqb x y.
Proof. intros -> -> -> ->. apply scaled_eqb, fac_pos. Qed.
Lemma same_le p q x' x y' y p' q' : like p q x' x -> like p' q' y' y -> p' = p -> q' = q -> nle x' y' = nle x y.
Proof. intros A B E E'. unfold nle. rewrite (same_lt _ _ _ _ _ _ _ _ A B E E'), (same_eqb _ _ _ _ _ _ _ _ A B E E'). reflexivity. Qed.
Lemma same_gt p q x' x y' y p' q' : like p q x' x -> like p' q' y' y -> p' = p -> q' = q -> ngt x' y' = ngt x y.
Proof. intros -> -> -> ->. apply scaled_lt, fac_pos. Qed.
Lemma same_ge p q x' x y' y p' q' : like p q x' x -> like p' q' y' y -> p' = p -> q' = q -> nge x' y' = nge x y.
Proof. intros A B -> ->. unfold nge. exact (same_le _ _ _ _ _ _ _ _ B A eq_refl eq_refl). Qed.
Lemma same_nan p q x' x : like p q x' x -> isnan x' = isnan x.
Proof. intros ->. apply scaled_nan. Qed.

(** The scales of the specification *)
Lemma distance_sc x : distance l x = sc 1 0 x.
Proof. unfold distance, sc. f_equal. unfold fac. rewrite Rpower_1, Rpower_O by assumption. ring. Qed.
Lemma sqrt_sc x : scaled (sqrt l) x = sc (1 / 2) 0 x.
Proof. unfold sc. f_equal. unfold fac. rewrite Rpower_O by assumption. rewrite Rmult_1_r. replace (1 / 2) with (/ 2) by lra. symmetry. apply Rpower_sqrt, L. Qed.
Lemma time_sc x : time l x = sc (1 / 2) 0 x. Proof. apply sqrt_sc. Qed.
Lemma velocity_sc x : velocity l x = sc (1 / 2) 0 x. Proof. apply sqrt_sc. Qed.
Lemma discharge_sc x : discharge l x = sc (3 / 2) 0 x.
Proof.
  unfold discharge, sc. f_equal. unfold fac. rewrite (Rpower_O d) by assumption. replace (3 / 2) with (1 + / 2) by lra.
  rewrite Rpower_plus, Rpower_1, Rpower_sqrt by assumption. ring.
Qed.
Lemma pow2_fac : l ^ 2 = Rpower l 2. Proof. rewrite <- (Rpower_pow 2) by exact L. f_equal. Qed.
Lemma pow3_fac : l ^ 3 = Rpower l 3. Proof. rewrite <- (Rpower_pow 3) by exact L. f_equal. cbn. lra. Qed.
Lemma volume_sc x : volume l x = sc 3 0 x.
Proof. unfold volume, sc. f_equal. unfold fac. rewrite (Rpower_O d), pow3_fac by assumption. ring. Qed.
Lemma density_sc x : density d x = sc 0 1 x.
Proof. unfold density, sc. f_equal. unfold fac. rewrite (Rpower_O l), Rpower_1 by assumption. ring. Qed.
Lemma mass_sc x : mass l d x = sc 3 1 x.
Proof. unfold mass, sc. f_equal. unfold fac. rewrite (Rpower_1 d), pow3_fac by assumption. ring. Qed.
Lemma pressure_sc x : pressure l d x = sc 1 1 x.
Proof. unfold pressure, sc. f_equal. unfold fac. rewrite !Rpower_1 by assumption. ring. Qed.
Lemma force_sc x : force l d x = sc 2 1 x.
Proof. unfold force, sc. f_equal. unfold fac. rewrite (Rpower_1 d), pow2_fac by assumption. ring. Qed.
Lemma moment_sc x : moment l d x = sc 3 1 x. Proof. apply mass_sc. Qed.
End Like.

(** ** Calls *)

(** With [w] the warnings count. *)
Definition sim {A} (w : bool) (h : A -> A) (m' m : M A) : Prop :=
  value m' = value (x <- m ;; ret (h x)) /\ (w = true -> warns m' = warns m).

Lemma sim_similar {A} (h : A -> A) m' m : sim true h m' m -> similar h m' m.
Proof.
  intros [V W]. specialize (W eq_refl). unfold similar. destruct m' as [w' r'], m as [w r]. cbn in *. subst w'. destruct r; cbn in *; rewrite V, ?app_nil_r; reflexivity.
Qed.
Lemma sim_value {A} (h : A -> A) m' m : sim false h m' m -> similar_value h m' m. Proof. intros [V _]. exact V. Qed.
Lemma sim_to {A} w (h h' : A -> A) m' m : (forall x, h x = h' x) -> sim w h' m' m -> sim w h m' m.
Proof. intros E [V W]. split; [|exact W]. rewrite V. destruct m as [ws [a|e]]; cbn; rewrite ?E; reflexivity. Qed.
Lemma sim_ret {A} w (h : A -> A) x' x : x' = h x -> sim w h (ret x') (ret x). Proof. intros ->. split; reflexivity. Qed.
Lemma sim_raise {A} w (h : A -> A) e : sim w h (raise e) (raise e). Proof. split; reflexivity. Qed.
Lemma sim_bind {A B} w (h1 : A -> A) (h : B -> B) m' m k' k :
  sim w h1 m' m -> (forall x, sim w h (k' (h1 x)) (k x)) -> sim w h (bind m' k') (bind m k).
Proof.
  intros [V W] K. destruct m as [ws [a|e]], m' as [ws' r']; cbn in V, W; subst r'.
  - specialize (K a). destruct K as [KV KW]. cbn. destruct (k' (h1 a)) as [w1 r1], (k a) as [w2 r2]. cbn in *. split; [destruct r2; exact KV|].
    intros E. cbn. rewrite (W E), (KW E). reflexivity.
  - split; [reflexivity|]. intros E. exact (W E).
Qed.
Lemma sim_fst {A B C} w (h1 : C -> C) (h : A -> A) m' m (k' k : C -> M (A * B)) :
  sim w h1 m' m -> (forall x, sim w h (r <- k' (h1 x) ;; ret (fst r)) (r <- k x ;; ret (fst r))) -> sim w h (r <- bind m' k' ;; ret (fst r)) (r <- bind m k ;; ret (fst r)).
Proof.
  intros S K. assert (E : forall (a : M C) (f : C -> M (A * B)), (r <- bind a f ;; ret (fst r)) = (x <- a ;; r <- f x ;; ret (fst r))).
  { intros [ws [a|e]] f; cbn; [|reflexivity]. destruct (f a) as [ws' [b|e]]; cbn; rewrite ?app_nil_r; reflexivity. }
  rewrite !E. exact (sim_bind w h1 h m' m _ _ S K).
Qed.
Lemma sim_if {A} w (h : A -> A) (b' b : bool) m1' m1 m2' m2 : b' = b -> sim w h m1' m1 -> sim w h m2' m2 ->
  sim w h (if b' then m1' else m2') (if b then m1 else m2).
Proof. intros ->. destruct b; auto. Qed.
Lemma sim_refl {A} w (m : M A) : sim w same m m.
Proof. split; [|reflexivity]. destruct m as [ws [a|e]]; reflexivity. Qed.
Lemma sim_when w (b' b : bool) m' m : b' = b -> sim w same m' m -> sim w same (when b' m') (when b m).
Proof. intros ->. destruct b; [auto|intros; apply sim_refl]. Qed.
Lemma sim_check w n f v' v lo' lo hi' hi : (w = true -> v' = v) -> (w = true -> lo' = lo) -> (w = true -> hi' = hi) -> sim w same (check n f v' lo' hi') (check n f v lo hi).
Proof.
  intros E1 E2 E3. destruct w; [rewrite E1, E2, E3 by reflexivity; apply sim_refl|]. split; [|discriminate].
  unfold check, check_variable_validity_range, check_values. destruct (_ || _)%bool, (_ || _)%bool; reflexivity.
Qed.

(** Without another density *)
Lemma like_density l d q x' x : 0 < l -> d = 1 -> like l d 0 q x' x -> x' = x.
Proof.
  intros L -> ->. unfold sc. replace (fac l 1 0 q) with 1; [apply scaled_1|]. unfold fac. rewrite Rpower_O by exact L.
  unfold Rpower. rewrite ln_1, Rmult_0_r, exp_0. ring.
Qed.

(** ** Tactics *)
Ltac nonzero := first [lra|intro; match goal with H : _ <> _ |- _ => apply H; lra end].
Ltac dims := lazymatch goal with |- ?a = ?b => first [has_evar a; apply eq_refl|has_evar b; apply eq_refl|lra|dec; lra|dec; field; lra|dec; field; nonzero] end.

(** Remembers which are the scales. *)
Definition scales (l d : R) : Prop := 0 < l /\ 0 < d.
Lemma scales_l l d : scales l d -> 0 < l. Proof. intros [H _]. exact H. Qed.
Lemma scales_d l d : scales l d -> 0 < d. Proof. intros [_ H]. exact H. Qed.
Lemma at_same l d x : scales l d -> like l d 0 0 x x. Proof. intros [L D]. apply like_same; assumption. Qed.
Lemma at_0 l d x' x : scales l d -> like l d 0 0 x' x -> x' = x. Proof. intros [L D]. apply like_0; assumption. Qed.
Lemma at_fun l d (f : num -> num) p q x' x : scales l d -> like l d p q x' x -> p = 0 -> q = 0 -> like l d 0 0 (f x') (f x).
Proof. intros [L D]. apply like_fun; assumption. Qed.
Lemma at_fun2 l d (f : num -> num -> num) p q p' q' x' x y' y : scales l d -> like l d p q x' x -> like l d p' q' y' y -> p = 0 -> q = 0 -> p' = 0 -> q' = 0 -> like l d 0 0 (f x' y') (f x y).
Proof. intros [L D]. apply like_fun2; assumption. Qed.
Lemma at_pow l d p q x' x y e : y = Fin e -> like l d p q x' x -> like l d (p * e) (q * e) (npow x' y) (npow x y).
Proof. intros -> H. apply like_pow; [exact H|reflexivity]. Qed.
Lemma at_density l d q x' x : scales l d -> d = 1 -> like l d 0 q x' x -> x' = x. Proof. intros [L _]. apply like_density, L. Qed.
Lemma eq_of_like l d p q x' x : scales l d -> like l d p q x' x -> x' = sc l d p q x. Proof. intros _ H. exact H. Qed.
Lemma eq_of_same {A} (x' x : A) : x' = x -> x' = same x. Proof. intros H. exact H. Qed.
Lemma eq_of_both {A B} (f : A -> A) (g : B -> B) a' b' a b : a' = f a -> b' = g b -> (a', b') = both f g (a, b). Proof. intros -> ->. reflexivity. Qed.

Lemma like_inf l d p q : like l d p q PInf PInf. Proof. reflexivity. Qed.
Lemma like_nan l d p q : like l d p q NaN NaN. Proof. reflexivity. Qed.
Lemma sim_when_not w b' b (m' m : M unit) : b' = false -> b = false -> sim w same (when b' m') (when b m).
Proof. intros -> ->. apply sim_refl. Qed.
Lemma nan_div x : (NaN / x)%num = NaN. Proof. reflexivity. Qed.
Ltac never := unfold provided; cbn [isnan negb]; rewrite ?andb_false_r, ?andb_false_l; reflexivity.

(** Lemmas about further functions *)
Ltac known := fail.
Ltac known_sim := fail.
Ltac known_bind := fail.

Ltac head t := lazymatch t with ?f _ => head f | _ => t end.

Ltac exponent := cbn [nneg nsub nadd nmul]; first [apply eq_refl|unfold ndiv, nsub; cbn [nneg nadd nmul]; cbv beta iota; rewrite Reqb_false by nonzero; apply eq_refl].

Ltac infer :=
  lazymatch goal with
  | |- like ?l ?d ?p ?q ?x' ?x =>
    tryif first [lazymatch x' with sc _ _ _ _ x => apply like_sc end|match goal with H : like _ _ _ _ x' x |- _ => exact H end] then idtac else (
    lazymatch x with
    | Fin _ => eapply at_same; eassumption
    | NaN => apply like_nan
    | PInf => apply like_inf
    | ndiv NaN _ => rewrite !nan_div; eapply at_same; eassumption
    | nmul _ NaN => eapply like_mul; [infer|eapply at_same; eassumption]
    | nmul _ _ => eapply like_mul; [infer|infer]
    | ndiv _ _ => eapply like_div; [infer|infer]
    | nadd (Fin 0) _ => eapply like_add; [apply like_zero|infer|dims|dims]
    | nadd _ (Fin 0) => eapply like_add; [infer|apply like_zero|dims|dims]
    | nsub (Fin 0) _ => eapply like_sub; [apply like_zero|infer|dims|dims]
    | nsub _ (Fin 0) => eapply like_sub; [infer|apply like_zero|dims|dims]
    | nadd _ _ => eapply like_add; [infer|infer|dims|dims]
    | nsub _ _ => eapply like_sub; [infer|infer|dims|dims]
    | nneg _ => eapply like_neg; infer
    | nabs _ => eapply like_abs; infer
    | nsqrt _ => eapply like_sqrt; infer
    | nmin (Fin 0) _ => eapply like_min; [apply like_zero|infer|dims|dims]
    | nmin _ (Fin 0) => eapply like_min; [infer|apply like_zero|dims|dims]
    | nmin _ _ => eapply like_min; [infer|infer|dims|dims]
    | nmax (Fin 0) _ => eapply like_max; [apply like_zero|infer|dims|dims]
    | nmax _ (Fin 0) => eapply like_max; [infer|apply like_zero|dims|dims]
    | nmax _ _ => eapply like_max; [infer|infer|dims|dims]
    | npow _ (Fin _) => eapply like_pow; [infer|apply eq_refl]
    | npow _ _ => first [eapply at_fun2; [eassumption|infer|infer|dims|dims|dims|dims]|pow_const]
    | nexp _ => eapply at_fun with (f := nexp); [eassumption|infer|dims|dims]
    | nlog _ => eapply at_fun with (f := nlog); [eassumption|infer|dims|dims]
    | ncos _ => eapply at_fun with (f := ncos); [eassumption|infer|dims|dims]
    | nsin _ => eapply at_fun with (f := nsin); [eassumption|infer|dims|dims]
    | ncosh _ => eapply at_fun with (f := ncosh); [eassumption|infer|dims|dims]
    | nsinh _ => eapply at_fun with (f := nsinh); [eassumption|infer|dims|dims]
    | ntanh _ => eapply at_fun with (f := ntanh); [eassumption|infer|dims|dims]
    | natan _ => eapply at_fun with (f := natan); [eassumption|infer|dims|dims]
    | nround _ => eapply at_fun with (f := nround); [eassumption|infer|dims|dims]
    | nfloor _ => eapply at_fun with (f := nfloor); [eassumption|infer|dims|dims]
    | if _ then Fin 0 else _ => eapply like_if; [bsame|apply like_zero|infer|dims|dims]
    | if _ then _ else Fin 0 => eapply like_if; [bsame|infer|apply like_zero|dims|dims]
    | if _ then _ else _ => eapply like_if; [bsame|infer|infer|dims|dims]
    | _ => tryif constr_eq x' x then (eapply at_same; eassumption) else tryif known then idtac else (let f := head x in unfold f; cbv beta zeta; infer)
    end)
  end
with pow_const := eapply at_pow; [exponent|infer]
with chk := eapply like_eq; [infer|dims|dims]
with bsame :=
  lazymatch goal with
  | |- ?b' = ?b =>
    lazymatch b with
    | nlt (Fin 0) _ => eapply same_lt; [apply like_zero|infer|dims|dims]
    | nlt _ (Fin 0) => eapply same_lt; [infer|apply like_zero|dims|dims]
    | nlt _ _ => eapply same_lt; [infer|infer|dims|dims]
    | nle (Fin 0) _ => eapply same_le; [apply like_zero|infer|dims|dims]
    | nle _ (Fin 0) => eapply same_le; [infer|apply like_zero|dims|dims]
    | nle _ _ => eapply same_le; [infer|infer|dims|dims]
    | ngt _ (Fin 0) => eapply same_gt; [infer|apply like_zero|dims|dims]
    | ngt _ _ => eapply same_gt; [infer|infer|dims|dims]
    | nge _ (Fin 0) => eapply same_ge; [infer|apply like_zero|dims|dims]
    | nge _ _ => eapply same_ge; [infer|infer|dims|dims]
    | neqb _ (Fin 0) => eapply same_eqb; [infer|apply like_zero|dims|dims]
    | neqb _ _ => eapply same_eqb; [infer|infer|dims|dims]
    | isnan _ => eapply same_nan; infer
    | provided _ => unfold provided; apply f_equal; bsame
    | existsb _ _ => cbn [existsb]; bsame
    | negb _ => apply f_equal; bsame
    | andb _ _ => apply f_equal2; bsame
    | orb _ _ => apply f_equal2; bsame
    | _ => first [reflexivity|eassumption]
    end
  end.

(** The value of a number without dimension, or of one with the dimension of a density *)
Ltac plain := first [lazymatch goal with |- ?x = ?x => reflexivity end|eapply at_0; [eassumption|chk]|
  eapply at_density; [eassumption|eauto 2|eapply like_eq; [infer|dims|apply eq_refl]]].

Ltac equal := lazymatch goal with |- _ = ?x => lazymatch type of x with bool => bsame | num => plain | prod _ _ => lazymatch x with (_, _) => apply f_equal2; equal | _ => reflexivity end | _ => reflexivity end end.
Ltac result :=
  lazymatch goal with
  | |- _ = both _ _ _ => unfold both; cbn [fst snd]; apply f_equal2; result
  | |- _ = (_, _) => apply f_equal2; result
  | |- ?x' = sc ?l ?d ?p ?q ?x => change (like l d p q x' x); chk
  | |- _ = same ?x => unfold same; equal
  | |- _ = ?h ?x => tryif is_evar h then lazymatch type of x with
     | num => lazymatch goal with S : scales ?l ?d |- ?x' = _ =>
         let p := open_constr:(_ : R) in let q := open_constr:(_ : R) in unify h (sc l d p q); change (like l d p q x' x); infer end
     | bool => apply eq_of_same; bsame
     | (_ * _)%type => eapply eq_of_both; result
     | _ => apply eq_of_same; reflexivity end else equal
  | _ => equal
  end.

Lemma sim_let {A} w l d p q (h : A -> A) e' e (k' k : num -> M A) : like l d p q e' e -> (forall x, sim w h (k' (sc l d p q x)) (k x)) -> sim w h (k' e') (k e).
Proof. intros ->. auto. Qed.
Lemma sim_let_bool {A} w (h : A -> A) e' e (k' k : bool -> M A) : e' = e -> (forall x, sim w h (k' x) (k x)) -> sim w h (k' e') (k e).
Proof. intros ->. auto. Qed.

Lemma sc_1 l p q q' x : sc l 1 p q x = sc l 1 p q' x.
Proof. unfold sc. f_equal. unfold fac, Rpower. rewrite ln_1, !Rmult_0_r. reflexivity. Qed.
(** A check is made with the same values only if the densities are unchanged. *)
Ltac unit_density :=
  match goal with S : scales ?l ?d |- _ =>
    let E := fresh "E" in assert (E : d = 1) by eauto 2;
    let S' := fresh "S" in assert (S' : scales l 1) by (split; [exact (scales_l _ _ S)|exact Rlt_0_1]);
    clear S; rewrite !E; rewrite ?(sc_1 l _ 1 0); plain end.
Ltac parts y := lazymatch type of y with prod _ _ => let a := fresh "a" in let b := fresh "b" in destruct y as [a b]; parts a; parts b | _ => idtac end.
Ltac sims :=
  lazymatch goal with
  | |- sim ?w ?h ?m' ?m =>
    lazymatch m with
    | bind (when _ _) _ => eapply sim_bind; [sims|intros ?; unfold same; sims]
    | bind (ret _) _ => rewrite !bind_ret_l; sims
    | bind _ _ => tryif known_bind then sims else (eapply sim_bind; [sims|let y := fresh "y" in intros y; cbv beta; parts y; unfold both, same; cbn [fst snd]; sims])
    | ret _ => apply sim_ret; result
    | raise _ => apply sim_raise
    | warn _ => apply sim_refl
    | when _ _ => first [apply sim_when_not; [never|never]|eapply sim_when; [bsame|sims]]
    | check _ _ _ _ _ => apply sim_check; intros; first [discriminate|plain|unit_density]
    | if _ then _ else _ => eapply sim_if; [bsame|sims|sims]
    | let (_, _) := if ?b then _ else _ in _ =>
        lazymatch m' with let (_, _) := if ?b' then _ else _ in _ => let E := fresh "E" in assert (E : b' = b) by bsame; rewrite E; clear E; destruct b; cbv beta iota; sims end
    | let (_, _) := ?e in _ => let y := fresh "y" in set (y := e); clearbody y; parts y; sims
    | match ?x with None => _ | Some _ => _ end => tryif is_var x then (destruct x as [x|]; [parts x|]; sims) else tryif known_sim then idtac else (cbv iota; sims)
    | _ => tryif constr_eq m' m then apply sim_refl else tryif known_sim then idtac else
        tryif (let f := head m in unfold f) then (cbv beta zeta; sims) else (progress cbv beta iota; sims)
    end
  end.

(** Start: write the scales as powers. *)
Ltac as_powers l d h :=
  lazymatch h with
  | distance l => constr:(sc l d 1 0)
  | time l => constr:(sc l d (1 / 2) 0)
  | velocity l => constr:(sc l d (1 / 2) 0)
  | discharge l => constr:(sc l d (3 / 2) 0)
  | volume l => constr:(sc l d 3 0)
  | density d => constr:(sc l d 0 1)
  | mass l d => constr:(sc l d 3 1)
  | pressure l d => constr:(sc l d 1 1)
  | force l d => constr:(sc l d 2 1)
  | moment l d => constr:(sc l d 3 1)
  | both ?f ?g => let f' := as_powers l d f in let g' := as_powers l d g in constr:(both f' g')
  | _ => h
  end.
Ltac powers l d := rewrite ?(distance_sc l d), ?(time_sc l d), ?(velocity_sc l d), ?(discharge_sc l d), ?(volume_sc l d), ?(density_sc l d), ?(mass_sc l d), ?(pressure_sc l d),
  ?(force_sc l d), ?(moment_sc l d) by assumption.
Ltac start l d :=
  assert (scales l d) by (split; assumption); powers l d;
  lazymatch goal with
  | |- sim ?w ?h _ _ => let h' := as_powers l d h in apply (sim_to w h h'); [intros; unfold both; powers l d; reflexivity|]
  | |- ?x' = sc l d ?p ?q ?x => change (like l d p q x' x)
  | _ => idtac
  end.
Lemma sim_upto_density d {A} (h : A -> A) m' m : (forall w, (w = true -> d = 1) -> sim w h m' m) -> similar_upto_density d h m' m.
Proof. intros S. split; [intros E; apply sim_similar, S; auto|apply sim_value, S; discriminate]. Qed.


(** ** Common functions *)

(** The density bears on the stone size if the mass is used; its default is not scaled. *)
Lemma usage_sim w l d Dn M rho : scales l d -> d = 1 \/ isnan rho = false ->
  sim w (sc l d 1 0) (check_usage_Dn50_or_M50 (sc l d 1 0 Dn) (sc l d 3 1 M) (sc l d 0 1 rho)) (check_usage_Dn50_or_M50 Dn M rho).
Proof.
  intros S R. unfold check_usage_Dn50_or_M50, calculate_Dn50_from_M50. eapply sim_if; [bsame|sims|].
  eapply sim_if; [bsame| |sims].
  replace (isnan (sc l d 0 1 rho)) with (isnan rho) by (symmetry; bsame). destruct (isnan rho); cbv iota; [|sims].
  destruct R as [->|R]; [|discriminate]. eapply sim_bind; [apply sim_refl|]. intros _. apply sim_ret. rewrite (sc_1 l 3 1 0). result.
Qed.
