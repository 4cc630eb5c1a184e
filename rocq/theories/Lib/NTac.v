(** Evaluation of the numpy operations on finite values, and of the effect
    monad.  The tactic [nfin] turns a model expression on finite values into
    the corresponding real expression, solving the side conditions (non-zero
    denominators, positive bases) with [rpos]. *)
From Coq Require Import Reals ZArith Lra Bool List.
From Verif.Lib Require Import Num Monad RTac.
Import ListNotations.
Open Scope R_scope.

Lemma nadd_fin a b : nadd (Fin a) (Fin b) = Fin (a + b). Proof. reflexivity. Qed.
Lemma nsub_fin a b : nsub (Fin a) (Fin b) = Fin (a - b). Proof. reflexivity. Qed.
Lemma nmul_fin a b : nmul (Fin a) (Fin b) = Fin (a * b). Proof. reflexivity. Qed.
Lemma nneg_fin a : nneg (Fin a) = Fin (- a). Proof. reflexivity. Qed.
Lemma nabs_fin a : nabs (Fin a) = Fin (Rabs a). Proof. reflexivity. Qed.
Lemma nexp_fin a : nexp (Fin a) = Fin (exp a). Proof. reflexivity. Qed.
Lemma ncos_fin a : ncos (Fin a) = Fin (cos a). Proof. reflexivity. Qed.
Lemma nsin_fin a : nsin (Fin a) = Fin (sin a). Proof. reflexivity. Qed.
Lemma ncosh_fin a : ncosh (Fin a) = Fin (cosh a). Proof. reflexivity. Qed.
Lemma nsinh_fin a : nsinh (Fin a) = Fin (sinh a). Proof. reflexivity. Qed.
Lemma ntanh_fin a : ntanh (Fin a) = Fin (tanh a). Proof. reflexivity. Qed.
Lemma natan_fin a : natan (Fin a) = Fin (atan a). Proof. reflexivity. Qed.
Lemma nfloor_fin a : nfloor (Fin a) = Fin (Rfloor a). Proof. reflexivity. Qed.
Lemma nround_fin a : nround (Fin a) = Fin (Rround a). Proof. reflexivity. Qed.
Lemma npi_fin : npi = Fin PI. Proof. reflexivity. Qed.

Lemma ndiv_fin a b : b <> 0 -> ndiv (Fin a) (Fin b) = Fin (a / b).
Proof. intros. simpl. rewrite Reqb_false by assumption. reflexivity. Qed.
Lemma nsqrt_fin a : 0 <= a -> nsqrt (Fin a) = Fin (sqrt a).
Proof. intros. simpl. rewrite Rltb_false by assumption. reflexivity. Qed.
Lemma nlog_fin a : 0 < a -> nlog (Fin a) = Fin (ln a).
Proof. intros. simpl. rewrite Rltb_true by assumption. reflexivity. Qed.
Lemma npow_fin a b : 0 < a -> npow (Fin a) (Fin b) = Fin (Rpower a b).
Proof. intros. simpl. rewrite Rltb_true by assumption. reflexivity. Qed.

Lemma npow_fin_nat a (n : nat) : npow (Fin a) (Fin (INR n)) = Fin (a ^ n).
Proof.
  simpl. destruct (Rltb_spec 0 a).
  - rewrite Rpower_pow by assumption. reflexivity.
  - destruct (Reqb_spec a 0).
    + subst. destruct (Reqb_spec (INR n) 0).
      * apply INR_eq in e || (change 0 with (INR 0) in e; apply INR_eq in e). subst. reflexivity.
      * destruct n. { exfalso; simpl in *; lra. }
        rewrite Rltb_true by (apply lt_0_INR; apply Nat.lt_0_succ).
        rewrite pow_i by (apply Nat.lt_0_succ). reflexivity.
    + rewrite INR_IZR_INZ, is_int_IZR, Int_part_IZR, <- pow_powerRZ. reflexivity.
Qed.
Lemma npow_fin_2 a : npow (Fin a) (Fin 2) = Fin (a ^ 2).
Proof. rewrite <- (npow_fin_nat a 2). do 2 f_equal. Qed.
Lemma npow_fin_3 a : npow (Fin a) (Fin 3) = Fin (a ^ 3).
Proof. rewrite <- (npow_fin_nat a 3). do 2 f_equal. simpl. lra. Qed.
Lemma npow_fin_4 a : npow (Fin a) (Fin 4) = Fin (a ^ 4).
Proof. rewrite <- (npow_fin_nat a 4). do 2 f_equal. simpl. lra. Qed.
Lemma npow_fin_5 a : npow (Fin a) (Fin 5) = Fin (a ^ 5).
Proof. rewrite <- (npow_fin_nat a 5). do 2 f_equal. simpl. lra. Qed.
Lemma npow_fin_6 a : npow (Fin a) (Fin 6) = Fin (a ^ 6).
Proof. rewrite <- (npow_fin_nat a 6). do 2 f_equal. simpl. lra. Qed.

Lemma nlt_fin a b : nlt (Fin a) (Fin b) = Rltb a b. Proof. reflexivity. Qed.
Lemma ngt_fin a b : ngt (Fin a) (Fin b) = Rltb b a. Proof. reflexivity. Qed.
Lemma neqb_fin a b : neqb (Fin a) (Fin b) = Reqb a b. Proof. reflexivity. Qed.
Lemma nle_fin a b : nle (Fin a) (Fin b) = Rleb a b.
Proof. unfold nle. simpl. apply Rltb_or_eqb. Qed.
Lemma nge_fin a b : nge (Fin a) (Fin b) = Rleb b a.
Proof. unfold nge. apply nle_fin. Qed.
Lemma nmin_fin a b : nmin (Fin a) (Fin b) = Fin (Rmin a b).
Proof. unfold nmin. simpl. rewrite <- Rmin_if. destruct (Rltb b a); reflexivity. Qed.
Lemma nmax_fin a b : nmax (Fin a) (Fin b) = Fin (Rmax a b).
Proof. unfold nmax. simpl. rewrite <- Rmax_if. destruct (Rltb a b); reflexivity. Qed.
Lemma isnan_fin a : isnan (Fin a) = false. Proof. reflexivity. Qed.
Lemma isnan_nan : isnan NaN = true. Proof. reflexivity. Qed.

(** NaN propagation *)
Lemma nadd_nan_l x : nadd NaN x = NaN. Proof. reflexivity. Qed.
Lemma nadd_nan_r x : nadd x NaN = NaN. Proof. destruct x; reflexivity. Qed.
Lemma nsub_nan_l x : nsub NaN x = NaN. Proof. reflexivity. Qed.
Lemma nsub_nan_r x : nsub x NaN = NaN. Proof. destruct x; reflexivity. Qed.
Lemma nmul_nan_l x : nmul NaN x = NaN. Proof. reflexivity. Qed.
Lemma nmul_nan_r x : nmul x NaN = NaN. Proof. destruct x; reflexivity. Qed.
Lemma ndiv_nan_l x : ndiv NaN x = NaN. Proof. reflexivity. Qed.
Lemma ndiv_nan_r x : ndiv x NaN = NaN. Proof. destruct x; reflexivity. Qed.
Lemma nmin_nan_l x : nmin NaN x = NaN. Proof. reflexivity. Qed.
Lemma nmin_nan_r x : nmin x NaN = NaN. Proof. destruct x; reflexivity. Qed.
Lemma nmax_nan_l x : nmax NaN x = NaN. Proof. reflexivity. Qed.
Lemma nmax_nan_r x : nmax x NaN = NaN. Proof. destruct x; reflexivity. Qed.
Lemma nlt_nan_l x : nlt NaN x = false. Proof. reflexivity. Qed.
Lemma nlt_nan_r x : nlt x NaN = false. Proof. destruct x; reflexivity. Qed.
Lemma ngt_nan_l x : ngt NaN x = false. Proof. destruct x; reflexivity. Qed.
Lemma ngt_nan_r x : ngt x NaN = false. Proof. destruct x; reflexivity. Qed.
Lemma neqb_nan_l x : neqb NaN x = false. Proof. destruct x; reflexivity. Qed.
Lemma neqb_nan_r x : neqb x NaN = false. Proof. destruct x; reflexivity. Qed.
Lemma nle_nan_l x : nle NaN x = false. Proof. destruct x; reflexivity. Qed.
Lemma nle_nan_r x : nle x NaN = false. Proof. destruct x; reflexivity. Qed.
Lemma nge_nan_l x : nge NaN x = false. Proof. destruct x; reflexivity. Qed.
Lemma nge_nan_r x : nge x NaN = false. Proof. destruct x; reflexivity. Qed.
Lemma nsqrt_nan : nsqrt NaN = NaN. Proof. reflexivity. Qed.
Lemma nexp_nan : nexp NaN = NaN. Proof. reflexivity. Qed.
Lemma nlog_nan : nlog NaN = NaN. Proof. reflexivity. Qed.
Lemma nneg_nan : nneg NaN = NaN. Proof. reflexivity. Qed.
Lemma nabs_nan : nabs NaN = NaN. Proof. reflexivity. Qed.
Lemma ncos_nan : ncos NaN = NaN. Proof. reflexivity. Qed.
Lemma npow_nan_l b : b <> 0 -> npow NaN (Fin b) = NaN.
Proof. intros. simpl. rewrite Reqb_false by assumption. reflexivity. Qed.
Lemma npow_nan_l' x : npow NaN x = match x with Fin b => if Reqb b 0 then Fin 1 else NaN | _ => NaN end.
Proof. destruct x; reflexivity. Qed.

(** Infinities *)
Lemma ndiv_pos_0 a : 0 < a -> ndiv (Fin a) (Fin 0) = PInf.
Proof. intros. simpl. rewrite Reqb_true by reflexivity. rewrite Reqb_false by lra. rewrite Rltb_true by lra. reflexivity. Qed.
Lemma ndiv_neg_0 a : a < 0 -> ndiv (Fin a) (Fin 0) = NInf.
Proof. intros. simpl. rewrite Reqb_true by reflexivity. rewrite Reqb_false by lra. rewrite Rltb_false by lra. reflexivity. Qed.
Lemma ndiv_0_0 : ndiv (Fin 0) (Fin 0) = NaN.
Proof. simpl. rewrite !Reqb_true by reflexivity. reflexivity. Qed.
Lemma nmul_pos_pinf a : 0 < a -> nmul (Fin a) PInf = PInf.
Proof. intros. simpl. unfold inf_mul. rewrite Reqb_false by lra. rewrite Rltb_true by lra. reflexivity. Qed.
Lemma nmul_neg_pinf a : a < 0 -> nmul (Fin a) PInf = NInf.
Proof. intros. simpl. unfold inf_mul. rewrite Reqb_false by lra. rewrite Rltb_false by lra. reflexivity. Qed.
Lemma nmul_pinf_pos a : 0 < a -> nmul PInf (Fin a) = PInf.
Proof. intros. simpl. unfold inf_mul. rewrite Reqb_false by lra. rewrite Rltb_true by lra. reflexivity. Qed.
Lemma nmul_pinf_neg a : a < 0 -> nmul PInf (Fin a) = NInf.
Proof. intros. simpl. unfold inf_mul. rewrite Reqb_false by lra. rewrite Rltb_false by lra. reflexivity. Qed.
Lemma nmul_ninf_pos a : 0 < a -> nmul NInf (Fin a) = NInf.
Proof. intros. simpl. unfold inf_mul. rewrite Reqb_false by lra. rewrite Rltb_true by lra. reflexivity. Qed.
Lemma nmul_ninf_neg a : a < 0 -> nmul NInf (Fin a) = PInf.
Proof. intros. simpl. unfold inf_mul. rewrite Reqb_false by lra. rewrite Rltb_false by lra. reflexivity. Qed.
Lemma ndiv_pinf_pos a : 0 < a -> ndiv PInf (Fin a) = PInf.
Proof. intros. simpl. rewrite Rltb_false by lra. reflexivity. Qed.
Lemma ndiv_ninf_pos a : 0 < a -> ndiv NInf (Fin a) = NInf.
Proof. intros. simpl. rewrite Rltb_false by lra. reflexivity. Qed.
Lemma npow_0_pos b : 0 < b -> npow (Fin 0) (Fin b) = Fin 0.
Proof.
  intros. simpl. rewrite Rltb_false by lra. rewrite Reqb_true by reflexivity.
  rewrite Reqb_false by lra. rewrite Rltb_true by lra. reflexivity.
Qed.
Lemma npow_0_neg b : b < 0 -> npow (Fin 0) (Fin b) = PInf.
Proof.
  intros. simpl. rewrite Rltb_false by lra. rewrite Reqb_true by reflexivity.
  rewrite Reqb_false by lra. rewrite Rltb_false by lra. reflexivity.
Qed.
Lemma npow_neg_nonint a b : a < 0 -> is_int b = false -> npow (Fin a) (Fin b) = NaN.
Proof.
  intros. simpl. rewrite Rltb_false by lra. rewrite Reqb_false by lra. rewrite H0. reflexivity.
Qed.

(** One rewriting step of [nfin]. *)
Ltac nstep :=
  match goal with
  | |- context [nadd (Fin ?a) (Fin ?b)] => rewrite (nadd_fin a b)
  | |- context [nsub (Fin ?a) (Fin ?b)] => rewrite (nsub_fin a b)
  | |- context [nmul (Fin ?a) (Fin ?b)] => rewrite (nmul_fin a b)
  | |- context [nneg (Fin ?a)] => rewrite (nneg_fin a)
  | |- context [nabs (Fin ?a)] => rewrite (nabs_fin a)
  | |- context [nexp (Fin ?a)] => rewrite (nexp_fin a)
  | |- context [ncos (Fin ?a)] => rewrite (ncos_fin a)
  | |- context [nsin (Fin ?a)] => rewrite (nsin_fin a)
  | |- context [ncosh (Fin ?a)] => rewrite (ncosh_fin a)
  | |- context [nsinh (Fin ?a)] => rewrite (nsinh_fin a)
  | |- context [ntanh (Fin ?a)] => rewrite (ntanh_fin a)
  | |- context [natan (Fin ?a)] => rewrite (natan_fin a)
  | |- context [nfloor (Fin ?a)] => rewrite (nfloor_fin a)
  | |- context [nround (Fin ?a)] => rewrite (nround_fin a)
  | |- context [nmin (Fin ?a) (Fin ?b)] => rewrite (nmin_fin a b)
  | |- context [nmax (Fin ?a) (Fin ?b)] => rewrite (nmax_fin a b)
  | |- context [isnan (Fin ?a)] => rewrite (isnan_fin a)
  | |- context [isnan NaN] => rewrite isnan_nan
  | |- context [npi] => rewrite npi_fin
  | |- context [nlt (Fin ?a) (Fin ?b)] => rewrite (nlt_fin a b)
  | |- context [ngt (Fin ?a) (Fin ?b)] => rewrite (ngt_fin a b)
  | |- context [nle (Fin ?a) (Fin ?b)] => rewrite (nle_fin a b)
  | |- context [nge (Fin ?a) (Fin ?b)] => rewrite (nge_fin a b)
  | |- context [neqb (Fin ?a) (Fin ?b)] => rewrite (neqb_fin a b)
  | |- context [npow (Fin ?a) (Fin 2)] => rewrite (npow_fin_2 a)
  | |- context [npow (Fin ?a) (Fin 3)] => rewrite (npow_fin_3 a)
  | |- context [npow (Fin ?a) (Fin 4)] => rewrite (npow_fin_4 a)
  | |- context [npow (Fin ?a) (Fin 5)] => rewrite (npow_fin_5 a)
  | |- context [npow (Fin ?a) (Fin 6)] => rewrite (npow_fin_6 a)
  | |- context [ndiv (Fin ?a) (Fin ?b)] => rewrite (ndiv_fin a b) by rpos
  | |- context [nsqrt (Fin ?a)] => rewrite (nsqrt_fin a) by rpos
  | |- context [nlog (Fin ?a)] => rewrite (nlog_fin a) by rpos
  | |- context [npow (Fin ?a) (Fin ?b)] => rewrite (npow_fin a b) by rpos
  end.
Ltac nfin := repeat nstep.

Ltac nnan :=
  repeat first
    [ rewrite nadd_nan_l | rewrite nadd_nan_r | rewrite nsub_nan_l | rewrite nsub_nan_r
    | rewrite nmul_nan_l | rewrite nmul_nan_r | rewrite ndiv_nan_l | rewrite ndiv_nan_r
    | rewrite nmin_nan_l | rewrite nmin_nan_r | rewrite nmax_nan_l | rewrite nmax_nan_r
    | rewrite nlt_nan_l | rewrite nlt_nan_r | rewrite ngt_nan_l | rewrite ngt_nan_r
    | rewrite nle_nan_l | rewrite nle_nan_r | rewrite nge_nan_l | rewrite nge_nan_r
    | rewrite neqb_nan_l | rewrite neqb_nan_r
    | rewrite nsqrt_nan | rewrite nexp_nan | rewrite nlog_nan | rewrite nneg_nan
    | rewrite nabs_nan | rewrite ncos_nan
    | rewrite npow_nan_l by rpos ].

(** ** The monad *)
Lemma value_ret {A} (a : A) : value (ret a) = Ok a. Proof. reflexivity. Qed.
Lemma value_raise {A} e : value (@raise A e) = Err e. Proof. reflexivity. Qed.
Lemma value_warn w : value (warn w) = Ok tt. Proof. reflexivity. Qed.
Lemma value_bind {A B} (m : M A) (k : A -> M B) :
  value (bind m k) = match value m with Ok a => value (k a) | Err e => Err e end.
Proof. unfold value, bind. destruct m as [w [a|e]]; simpl; [destruct (k a)|]; reflexivity. Qed.
Lemma value_bind_ok {A B} (m : M A) (k : A -> M B) a :
  value m = Ok a -> value (bind m k) = value (k a).
Proof. intros E. rewrite value_bind, E. reflexivity. Qed.
Lemma value_bind_err {A B} (m : M A) (k : A -> M B) e :
  value m = Err e -> value (bind m k) = Err e.
Proof. intros E. rewrite value_bind, E. reflexivity. Qed.
Lemma value_when b m : value m = Ok tt -> value (when b m) = Ok tt.
Proof. destruct b; [tauto|reflexivity]. Qed.
Lemma warns_ret {A} (a : A) : warns (ret a) = []. Proof. reflexivity. Qed.
Lemma warns_bind {A B} (m : M A) (k : A -> M B) :
  warns (bind m k) = (warns m ++ match value m with Ok a => warns (k a) | Err _ => [] end)%list.
Proof.
  unfold value, warns, bind. destruct m as [w [a|e]]; simpl.
  - destruct (k a); reflexivity.
  - rewrite app_nil_r. reflexivity.
Qed.
Lemma bind_ret_l {A B} (a : A) (k : A -> M B) : bind (ret a) k = k a.
Proof. unfold bind, ret. destruct (k a). reflexivity. Qed.

Ltac mval :=
  repeat (progress (rewrite ?value_bind, ?value_ret, ?value_warn, ?value_raise; cbv beta iota)).

(** Goals [0 < buoyant..] and the like are solved by hypotheses; products of
    hypotheses by [nra]. *)
Ltac msplit := repeat split.
