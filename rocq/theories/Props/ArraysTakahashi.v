(** Property C72: toes of caissons, Takahashi et al. (1990), with arrays. *)
From Coq Require Import Reals Lra Lia List Bool Arith.
From Verif.Lib Require Import Num Monad Arr ArrFlags ArrLoop RTac NTac.
From Verif.Spec Require Import Arrays ArrayFlags ArrayStacks ArrayLoops ArrayOne ArrayWide ArrayWarnings ArrayCalls ArrayCaisson.
From Verif.Model Require Import CoreUtility ArrCore.
From Verif.Model Require CorePhysics Takahashi1990 ArrGoda1985 ArrTakahashi1990.
From Verif.Proofs Require Import Warns Core CheckTac Arrays ArrayLoops ArrayFlags ArrayTaw ArrayStacks ArrayWarnings ArrayCalls ArrayOne ArrayWide ArrayCaisson.
Import ListNotations.
Open Scope nat_scope.

(** ** Once the wave length is known *)

Definition number (Hs Lp hacc Bt beta : nums) : M nums :=
  (k <- (lit 2 * api) / Lp ;;
  hacck2 <- lit 2 * k * hacc ;;
  kappa_1 <- hacck2 / asinh hacck2 ;;
  kappa_2a <- lit 0.45 * apow (asin beta) (lit 2) * apow (acos (k * Bt * acos beta)) (lit 2) ;;
  kappa_2b <- apow (acos beta) (lit 2) * apow (asin (k * Bt * acos beta)) (lit 2) ;;
  kappa_2 <- amax kappa_2a kappa_2b ;;
  kappa <- kappa_1 * kappa_2 ;;
  a <- (lit 1 - kappa) / apow kappa (lit 1 / lit 3) ;;
  b <- apow (lit 1 - kappa) (lit 2) / apow kappa (lit 1 / lit 3) ;;
  amax (lit 1.8) (lit 1.3 * a * hacc / Hs + lit 1.8 * aexp (- lit 1.5 * b * (hacc / Hs))))%arr.
Definition number_s (Hs Lp hacc Bt beta : num) : num :=
  (let k := (#2 * npi) / Lp in
  let hacck2 := #2 * k * hacc in
  let kappa_1 := hacck2 / nsinh hacck2 in
  let kappa_2a := #0.45 * npow (nsin beta) #2 * npow (ncos (k * Bt * ncos beta)) #2 in
  let kappa_2b := npow (ncos beta) #2 * npow (nsin (k * Bt * ncos beta)) #2 in
  let kappa_2 := nmax kappa_2a kappa_2b in
  let kappa := kappa_1 * kappa_2 in
  let a := (#1 - kappa) / npow kappa (#1 / #3) in
  let b := npow (#1 - kappa) #2 / npow kappa (#1 / #3) in
  nmax #1.8 (#1.3 * a * hacc / Hs + #1.8 * nexp (- #1.5 * b * (hacc / Hs))))%num.
Definition radians (beta : nums) : nums := amap Numpy.deg2rad beta.

Lemma bind_assoc {A B C} (m : M A) (k : A -> M B) (h : B -> M C) : bind (bind m k) h = bind m (fun x => bind (k x) h).
Proof. destruct m as [w [a|e]]; unfold bind; cbn; [|reflexivity]. destruct (k a) as [w' [b|e]]; cbn; [|reflexivity]. destruct (h b) as [w'' r]. cbn. rewrite app_assoc. reflexivity. Qed.
Lemma bind_ext {A B} (m : M A) (k k' : A -> M B) : (forall x, k x = k' x) -> bind m k = bind m k'.
Proof. intros H. destruct m as [w [a|e]]; unfold bind; cbn; [rewrite H|]; reflexivity. Qed.

Lemma Ns_split disper Hs Tp hacc Bt beta g :
  ArrTakahashi1990.calculate_stability_number_Ns disper Hs Tp hacc Bt beta g
  = (L <- ArrGoda1985.calculate_local_wavelength disper Tp hacc g ;;
     N <- number Hs L hacc Bt (radians beta) ;; ArrTakahashi1990.check_validity N Bt ;; ret N).
Proof.
  unfold ArrTakahashi1990.calculate_stability_number_Ns. change (adeg2rad beta) with (ret (radians beta)). rewrite bind_ret_l.
  apply bind_ext. intros L. unfold number. repeat (rewrite bind_assoc; apply bind_ext; intros ?). reflexivity.
Qed.
Lemma scalar_split disper Hs Tp hacc Bt beta g :
  Takahashi1990.calculate_stability_number_Ns disper Hs Tp hacc Bt beta g
  = (let N := number_s Hs (CorePhysics.local_wavelength disper Tp hacc g) hacc Bt (Numpy.deg2rad beta) in Takahashi1990.check_validity N Bt ;; ret N).
Proof. reflexivity. Qed.

Lemma number_expression Hs Lp hacc Bt beta :
  expression [Hs; Lp; hacc; Bt; beta] (number Hs Lp hacc Bt beta)
    (fun i => number_s (place i Hs) (place i Lp) (place i hacc) (place i Bt) (place i beta)).
Proof. unfold number, number_s. expression_tac. Qed.
Lemma number_quiet Hs Lp hacc Bt beta : quiet (number Hs Lp hacc Bt beta).
Proof. unfold number. autounfold with arrays. quiet_tac. Qed.
Lemma radians_shape beta : shape (radians beta) = shape beta.
Proof. destruct beta; cbn; [reflexivity|rewrite map_length; reflexivity]. Qed.
Lemma radians_place beta sh i : stretches (shape beta) sh -> inside sh i -> place i (radians beta) = Numpy.deg2rad (place i beta).
Proof.
  intros S I. destruct (at_some beta sh i S I) as (x & E). unfold place. rewrite E.
  destruct beta as [z|[|z [|z' l]]]; cbn in *; try (injection E as <-; reflexivity); [destruct i; discriminate E|].
  destruct i as [|[|i]]; cbn in *; try (injection E as <-; reflexivity). rewrite nth_error_map, E. reflexivity.
Qed.

Lemma check_runs N Bt : value (ArrTakahashi1990.check_validity N Bt) = Ok tt.
Proof. unfold ArrTakahashi1990.check_validity. runs_tac. Qed.
Lemma check_scalar_runs N Bt : value (Takahashi1990.check_validity N Bt) = Ok tt.
Proof. unfold Takahashi1990.check_validity. mchecks. reflexivity. Qed.
Lemma wavelength_quiet' disper T h g : quiet (ArrGoda1985.calculate_local_wavelength disper T h g).
Proof. unfold ArrGoda1985.calculate_local_wavelength. apply quiet_bind; [apply wavelength_quiet|intros; apply quiet_ret]. Qed.

Lemma Ns_value disper Hs Tp hacc Bt beta g L : value (ArrGoda1985.calculate_local_wavelength disper Tp hacc g) = Ok L ->
  value (ArrTakahashi1990.calculate_stability_number_Ns disper Hs Tp hacc Bt beta g) = value (number Hs L hacc Bt (radians beta)).
Proof.
  intros E. rewrite Ns_split, value_bind, E.
  apply (checked_value _ _ _ (fun N => ArrTakahashi1990.check_validity N Bt) (number_expression _ _ _ _ _)). intros. apply check_runs.
Qed.
Lemma scalar_value' disper Hs Tp hacc Bt beta g :
  value (Takahashi1990.calculate_stability_number_Ns disper Hs Tp hacc Bt beta g)
  = Ok (number_s Hs (CorePhysics.local_wavelength disper Tp hacc g) hacc Bt (Numpy.deg2rad beta)).
Proof. rewrite scalar_split. cbv zeta. rewrite value_bind, check_scalar_runs. reflexivity. Qed.

(** A period goes with its depth *)
Lemma paired_stretch T h sh : paired T h -> stretches (shape h) sh -> stretches (shape T) sh.
Proof.
  intros [(P & Q)|(n & N & Q & [P|P])] S; [left; exact P|left; exact P|rewrite P, <- Q; exact S].
Qed.
Lemma paired_inside T h sh i : paired T h -> stretches (shape h) sh -> inside sh i -> inside (shape h) i.
Proof.
  intros P [S|[(S & _)|S]] I; [rewrite S; exact Logic.I| |rewrite S; exact I].
  destruct P as [(_ & P)|(n & N & P & _)]; rewrite S in P; [discriminate P|]. injection P as <-. exfalso. exact (Nat.lt_irrefl _ N).
Qed.
Lemma wavelength_den disper T h g sh : paired T h -> stretches (shape h) sh ->
  den sh (ArrGoda1985.calculate_local_wavelength disper T h g) (fun i => CorePhysics.local_wavelength disper (place i T) (place i h) g).
Proof.
  intros P S. destruct (wavelength_paired disper T h g P) as (L & E & SL & V). exists L. split; [exact E|]. split; [rewrite SL; exact S|].
  intros i I. pose proof (paired_inside _ _ _ _ P S I) as J. destruct (at_some L (shape h) i) as (x & Ex); [rewrite SL; apply stretches_refl|exact J|].
  specialize (V i J). unfold place at 1 in V. rewrite Ex in *. congruence.
Qed.

(** ** Stability number *)

Definition Ns_v disper Hs Tp hacc Bt beta g (i : nat) : num :=
  number_s (place i Hs) (CorePhysics.local_wavelength disper (place i Tp) (place i hacc) g) (place i hacc) (place i Bt) (Numpy.deg2rad (place i beta)).
Lemma Ns_expression disper Hs Tp hacc Bt beta g L : paired Tp hacc -> value (ArrGoda1985.calculate_local_wavelength disper Tp hacc g) = Ok L -> 
  expression [Hs; Tp; hacc; Bt; beta] (number Hs L hacc Bt (radians beta)) (Ns_v disper Hs Tp hacc Bt beta g).
Proof.
  intros P E. destruct (number_expression Hs L hacc Bt (radians beta)) as (D & U & T).
  destruct (wavelength_paired disper Tp hacc g P) as (L' & E' & SL & V). pose proof (eq_trans (eq_sym E) E') as J. injection J as <-.
  split; [|split; [|exact T]].
  - intros sh F. args_tac.
    eapply den_ext; [apply D; repeat (constructor; [rewrite ?radians_shape, ?SL; assumption|]); constructor|].
    intros i I. cbv beta. unfold Ns_v. rewrite (radians_place beta sh i) by assumption.
    rewrite V by (eapply paired_inside; eauto). reflexivity.
  - intros r Er. specialize (U r Er). cbn [map] in *. rewrite radians_shape in U. args_tac.
    constructor; [assumption|]. constructor; [eapply paired_stretch; eassumption|]. repeat (constructor; [assumption|]). constructor.
Qed.

Theorem C72_Ns : forall disper Hs Tp hacc Bt beta g, paired Tp hacc ->
  place_by_place [Hs; Tp; hacc; Bt; beta]
    (ArrTakahashi1990.calculate_stability_number_Ns disper Hs Tp hacc Bt beta g)
    (fun at_ => value (Takahashi1990.calculate_stability_number_Ns disper (at_ Hs) (at_ Tp) (at_ hacc) (at_ Bt) (at_ beta) g)).
Proof.
  intros * P. destruct (wavelength_paired disper Tp hacc g P) as (L & E & _).
  eapply place_by_place_intro; [apply Ns_value, E|apply Ns_expression; [exact P|exact E]|].
  intros sh i F I. cbv beta. apply scalar_value'.
Qed.

#[local] Hint Unfold ArrTakahashi1990.check_validity : arrays.
#[local] Hint Unfold Takahashi1990.check_validity : scalars.

Lemma Ns_tells disper Hs Tp hacc Bt beta g sh : paired Tp hacc -> sh <> Some 0 -> Forall (fun a => stretches (shape a) sh) [Hs; Tp; hacc; Bt; beta] ->
  all_or_none Bt -> throughout sh (fun at_ => outcome (Takahashi1990.calculate_stability_number_Ns disper (at_ Hs) (at_ Tp) (at_ hacc) (at_ Bt) (at_ beta) g)) ->
  tells sh (ArrTakahashi1990.calculate_stability_number_Ns disper Hs Tp hacc Bt beta g)
    (fun i => Takahashi1990.calculate_stability_number_Ns disper (place i Hs) (place i Tp) (place i hacc) (place i Bt) (place i beta) g).
Proof.
  intros P NE F A T. args_tac. rewrite Ns_split. eapply tells_ext; [intros i I; symmetry; apply scalar_split|].
  eapply tells_let; [apply wavelength_quiet'|apply wavelength_den; eassumption|]. intros L SL DL.
  assert (DN : den sh (number Hs L hacc Bt (radians beta)) (Ns_v disper Hs Tp hacc Bt beta g)).
  { destruct (number_expression Hs L hacc Bt (radians beta)) as (D & _).
    eapply den_ext; [apply D; repeat (constructor; [rewrite ?radians_shape; assumption|]); constructor|].
    intros i I. cbv beta. unfold Ns_v. rewrite (radians_place beta sh i), (den_place _ _ _ _ DL I) by assumption. reflexivity. }
  eapply tells_let; [apply number_quiet|exact DN|]. intros N SN D.
  unfold ArrTakahashi1990.check_validity, Takahashi1990.check_validity. cbv zeta.
  apply (tells_seq sh _ (ret N) (fun i => _) (fun i => ret (Ns_v disper Hs Tp hacc Bt beta g i)) NE).
  - assert (G : forall i, inside sh i -> provided (Ns_v disper Hs Tp hacc Bt beta g i) = given N).
    { intros i I. refine (given_computed N sh _ _ NE SN D T _ i I). intros j J. f_equal. apply outcome_ok, scalar_value'. }
    apply told_seq; [exact NE|apply told_when; [exact G|intros _; told_tac]|told_tac].
  - eapply tells_expr; [apply quiet_value|exact D|reflexivity].
Qed.

(** With the toe width given everywhere or nowhere and the result a number everywhere or
    nowhere, the warnings are those at the places. *)
Theorem C72_Ns_reports : forall disper Hs Tp hacc Bt beta g, paired Tp hacc ->
  reports_call [Hs; Tp; hacc; Bt; beta] [Bt]
    [fun at_ => outcome (Takahashi1990.calculate_stability_number_Ns disper (at_ Hs) (at_ Tp) (at_ hacc) (at_ Bt) (at_ beta) g)]
    (ArrTakahashi1990.calculate_stability_number_Ns disper Hs Tp hacc Bt beta g)
    (fun at_ => Takahashi1990.calculate_stability_number_Ns disper (at_ Hs) (at_ Tp) (at_ hacc) (at_ Bt) (at_ beta) g).
Proof.
  intros * P. apply reports_intro. intros sh NE F A T. inversion A; subst. inversion T; subst. apply Ns_tells; assumption.
Qed.
(** Of several periods with one float as depth only the first one counts. *)
Theorem C72_Ns_first : forall disper Hs t ts h Bt beta g,
  ArrTakahashi1990.calculate_stability_number_Ns disper Hs (Ar (t :: ts)) (float h) Bt beta g
  = ArrTakahashi1990.calculate_stability_number_Ns disper Hs (float t) (float h) Bt beta g.
Proof. reflexivity. Qed.

Lemma wavelength_stops disper Tp hacc g : 
  (Tp = Ar [] -> shape hacc = None -> value (ArrGoda1985.calculate_local_wavelength disper Tp hacc g) = Err IndexError)
  /\ (shape hacc <> None -> ~ paired Tp hacc -> value (ArrGoda1985.calculate_local_wavelength disper Tp hacc g) = Err UnboundLocalError).
Proof.
  split.
  - intros -> H. destruct hacc; [reflexivity|discriminate H].
  - intros H N. destruct hacc as [|hs]; [exfalso; apply H; reflexivity|]. unfold ArrGoda1985.calculate_local_wavelength, CorePhysics.calculate_local_wavelength.
    cbn [ArrGoda1985.py]. destruct (Nat.ltb_spec 1 (length hs)) as [L|L]; [|reflexivity]. destruct Tp as [t|ts]; cbn [ArrGoda1985.py].
    + exfalso. apply N. right. exists (length hs). split; [exact L|]. split; [reflexivity|left; reflexivity].
    + destruct (Nat.eqb_spec (length hs) (length ts)) as [K|K]; [|reflexivity].
      exfalso. apply N. right. exists (length hs). split; [exact L|]. split; [reflexivity|right; cbn; congruence].
Qed.
Theorem C72_Ns_stop : forall disper Hs Tp hacc Bt beta g,
  let call := ArrTakahashi1990.calculate_stability_number_Ns disper Hs Tp hacc Bt beta g in
  (Tp = Ar [] -> shape hacc = None -> value call = Err IndexError)
  /\ (shape hacc <> None -> ~ paired Tp hacc -> value call = Err UnboundLocalError).
Proof.
  intros. destruct (wavelength_stops disper Tp hacc g) as (A & B). unfold call.
  split; intros; rewrite Ns_split, value_bind; [rewrite A by assumption|rewrite B by assumption]; reflexivity.
Qed.

(** ** Stone size *)

Lemma Dn50_value disper Hs Tp hacc Bt rho_rock rho_water beta g L : value (ArrGoda1985.calculate_local_wavelength disper Tp hacc g) = Ok L ->
  value (ArrTakahashi1990.calculate_nominal_diameter_Dn50 disper Hs Tp hacc Bt rho_rock rho_water beta g)
  = value (Delta <- calculate_buoyant_density_Delta rho_rock rho_water ;; Ns <- number Hs L hacc Bt (radians beta) ;; (Hs / Ns / Delta)%arr).
Proof.
  intros E. unfold ArrTakahashi1990.calculate_nominal_diameter_Dn50. rewrite !value_bind. destruct (value (calculate_buoyant_density_Delta _ _)) as [D|]; [|reflexivity].
  rewrite !value_bind, (Ns_value _ _ _ _ _ _ _ _ E). destruct (value (number _ _ _ _ _)) as [N|]; [|reflexivity].
  first_tac. rewrite value_bind. destruct (value (Hs / N / D)%arr); reflexivity.
Qed.
Lemma Dn50_scalar disper Hs Tp hacc Bt rho_rock rho_water beta g :
  Takahashi1990.calculate_nominal_diameter_Dn50 disper Hs Tp hacc Bt rho_rock rho_water beta g
  = (Ns <- Takahashi1990.calculate_stability_number_Ns disper Hs Tp hacc Bt beta g ;;
     ret (Hs / Ns / CorePhysics.calculate_buoyant_density_Delta rho_rock rho_water)%num).
Proof. reflexivity. Qed.

Theorem C72_Dn50 : forall disper Hs Tp hacc Bt rho_rock rho_water beta g, paired Tp hacc ->
  place_by_place [Hs; Tp; hacc; Bt; rho_rock; rho_water; beta]
    (ArrTakahashi1990.calculate_nominal_diameter_Dn50 disper Hs Tp hacc Bt rho_rock rho_water beta g)
    (fun at_ => value (Takahashi1990.calculate_nominal_diameter_Dn50 disper (at_ Hs) (at_ Tp) (at_ hacc) (at_ Bt) (at_ rho_rock) (at_ rho_water) (at_ beta) g)).
Proof.
  intros * P. destruct (wavelength_paired disper Tp hacc g P) as (L & E & _).
  pose proof (Ns_expression disper Hs Tp hacc Bt beta g L P E) as X.
  eapply place_by_place_intro with (v := fun i => (place i Hs / Ns_v disper Hs Tp hacc Bt beta g i
     / CorePhysics.calculate_buoyant_density_Delta (place i rho_rock) (place i rho_water))%num); [apply Dn50_value, E| |].
  - destruct X as (D & U & T). split; [|split].
    + intros sh F. args_tac. eapply den_bind; [unfold calculate_buoyant_density_Delta; den_tac|]. intros De SDe DDe.
      eapply den_bind; [apply D; repeat (constructor; [assumption|]); constructor|]. intros N SN DN.
      eapply den_ext; [den_tac|reflexivity].
    + intros r Er. take Er De H1. take Er q H2. specialize (U q H2). cbn [map] in U. used H1 [shape rho_rock; shape rho_water].
      used Er [shape Hs; shape Tp; shape hacc; shape Bt; shape beta; shape rho_rock; shape rho_water]. cbn [map]. clear - U1. args_tac. repeat (constructor; [eauto using stretches_trans|]). constructor.
    + apply tame_bind; [unfold calculate_buoyant_density_Delta; tame_tac|]. intros. apply tame_bind; [exact T|]. intros. tame_tac.
  - intros sh i F I. cbv beta. rewrite Dn50_scalar, value_bind, scalar_value'. reflexivity.
Qed.

Theorem C72_Dn50_reports : forall disper Hs Tp hacc Bt rho_rock rho_water beta g, paired Tp hacc ->
  reports_call [Hs; Tp; hacc; Bt; rho_rock; rho_water; beta] [Bt]
    [fun at_ => outcome (Takahashi1990.calculate_stability_number_Ns disper (at_ Hs) (at_ Tp) (at_ hacc) (at_ Bt) (at_ beta) g)]
    (ArrTakahashi1990.calculate_nominal_diameter_Dn50 disper Hs Tp hacc Bt rho_rock rho_water beta g)
    (fun at_ => Takahashi1990.calculate_nominal_diameter_Dn50 disper (at_ Hs) (at_ Tp) (at_ hacc) (at_ Bt) (at_ rho_rock) (at_ rho_water) (at_ beta) g).
Proof.
  intros * P. apply reports_intro. intros sh NE F A T. inversion A; subst. inversion T; subst. args_tac.
  unfold ArrTakahashi1990.calculate_nominal_diameter_Dn50.
  eapply tells_let; [unfold calculate_buoyant_density_Delta; quiet_tac|unfold calculate_buoyant_density_Delta; den_tac|]. intros De SDe DDe.
  eapply tells_ext; [intros i I; symmetry; apply Dn50_scalar|].
  apply tells_call; [apply Ns_tells; [assumption|assumption|repeat (constructor; [assumption|]); constructor|assumption|assumption]|].
  intros N SN VN. eapply tells_let; [quiet_tac|den_tac|]. intros r Sr Dr. eapply tells_expr; [quiet_tac|den_tac|reflexivity].
Qed.

Theorem C72_Dn50_first : forall disper Hs t ts h Bt rho_rock rho_water beta g,
  ArrTakahashi1990.calculate_nominal_diameter_Dn50 disper Hs (Ar (t :: ts)) (float h) Bt rho_rock rho_water beta g
  = ArrTakahashi1990.calculate_nominal_diameter_Dn50 disper Hs (float t) (float h) Bt rho_rock rho_water beta g.
Proof. reflexivity. Qed.

(** Densities that do not go together are noticed before the wave length is calculated. *)
Theorem C72_Dn50_stop : forall disper Hs Tp hacc Bt rho_rock rho_water beta g,
  let call := ArrTakahashi1990.calculate_nominal_diameter_Dn50 disper Hs Tp hacc Bt rho_rock rho_water beta g in
  (~ compatible [rho_rock; rho_water] -> value call = Err ValueError)
  /\ (compatible [rho_rock; rho_water] ->
        (Tp = Ar [] -> shape hacc = None -> value call = Err IndexError)
        /\ (shape hacc <> None -> ~ paired Tp hacc -> value call = Err UnboundLocalError)).
Proof.
  intros.
  assert (X : expression [rho_rock; rho_water] (calculate_buoyant_density_Delta rho_rock rho_water) (fun i => CorePhysics.calculate_buoyant_density_Delta (place i rho_rock) (place i rho_water)))
    by expression_tac.
  split.
  - intros N. unfold call, ArrTakahashi1990.calculate_nominal_diameter_Dn50. rewrite value_bind, (expression_raises _ _ _ X N). reflexivity.
  - intros (sh & F). destruct (settle _ _ _ _ X F) as (D & ED & _). destruct (C72_Ns_stop disper Hs Tp hacc Bt beta g) as (A & B).
    split; intros; unfold call, ArrTakahashi1990.calculate_nominal_diameter_Dn50; rewrite value_bind, ED, value_bind; [rewrite A by assumption|rewrite B by assumption]; reflexivity.
Qed.
(** ** Search for the depth above the toe *)

Lemma one_given (a : nums) x : one_number a x -> given a = provided x.
Proof. intros O. unfold given, any_nan, provided. rewrite O. cbn [existsb]. rewrite orb_false_r. reflexivity. Qed.
Lemma one_acheck n f (a : nums) x lo hi : one_number a x -> acheck n f a lo hi = check n f x lo hi.
Proof.
  intros O. unfold acheck, check, check_variable_validity_range. change (value_of a) with (ret a). rewrite bind_ret_l, O. reflexivity.
Qed.
Lemma Ns_one disper Hs t h Bt beta g x b be : one_number Hs x -> one_number Bt b -> one_number beta be ->
  exists r y, one_number r y
  /\ ArrTakahashi1990.calculate_stability_number_Ns disper Hs (float t) (float h) Bt beta g
     = (warns (Takahashi1990.calculate_stability_number_Ns disper x t h b be g), Ok r)
  /\ value (Takahashi1990.calculate_stability_number_Ns disper x t h b be g) = Ok y.
Proof.
  intros O1 O2 O3. rewrite Ns_split. pose proof O2 as OB. apply one_at in O1 as (S1 & <-), O2 as (S2 & <-), O3 as (S3 & <-).
  set (L := CorePhysics.local_wavelength disper t h g).
  destruct (settled _ _ _ (Some 1) (number_expression Hs (float L) (float h) Bt (radians beta)) (number_quiet _ _ _ _ _)) as (r & E & _ & Sr & V).
  { repeat (constructor; [first [assumption|left; reflexivity|rewrite radians_shape; assumption]|]). constructor. }
  specialize (V 0 (le_n 1)). rewrite (radians_place beta (Some 1) 0 S3 (le_n 1)) in V.
  exists r, (place 0 r). split; [apply one_at; split; [exact Sr|reflexivity]|]. split.
  - rewrite (skip _ _ (float L) _ eq_refl eq_refl). rewrite (skip _ _ r _ E eq_refl).
    rewrite scalar_split. fold L. cbv zeta. rewrite warns_bind, check_scalar_runs. cbn [warns ret fst]. rewrite app_nil_r.
    change (place 0 (float L)) with L in V. change (place 0 (float h)) with h in V.
    rewrite <- V. unfold ArrTakahashi1990.check_validity, Takahashi1990.check_validity.
    assert (Or : one_number r (place 0 r)) by (apply one_at; split; [exact Sr|reflexivity]).
    rewrite (one_given r _ Or), (one_given Bt _ OB). rewrite (one_acheck _ _ r _ _ _ Or), (one_acheck _ _ Bt _ _ _ OB).
    fold (Takahashi1990.check_validity (place 0 r) (place 0 Bt)). pose proof (check_scalar_runs (place 0 r) (place 0 Bt)) as K.
    destruct (Takahashi1990.check_validity (place 0 r) (place 0 Bt)) as [w v]. cbn in K. subst v. cbn. rewrite app_nil_r. reflexivity.
  - rewrite scalar_value'. rewrite V. reflexivity.
Qed.

Lemma truth_entries (b : arr bool) v : entries b = [v] -> truth b = ret v.
Proof. destruct b as [x|[|x [|y l]]]; cbn; intros H; try discriminate H; injection H as ->; reflexivity. Qed.
Lemma lift2_one {A B C} (f : A -> B -> C) (a : arr A) (b : arr B) x y : entries a = [x] -> entries b = [y] ->
  exists r, lift2 f (ret a) (ret b) = ret r /\ entries r = [f x y].
Proof.
  intros O O'. unfold lift2. rewrite !bind_ret_l.
  destruct a as [x1|[|x1 [|x2 l]]]; try discriminate O; destruct b as [y1|[|y1 [|y2 m]]]; try discriminate O'; cbn in O, O';
    injection O as ->; injection O' as ->; eexists; split; reflexivity.
Qed.

Lemma loop_one disper fuel : forall Ns Hs Bt beta x b be t g d n fe f h N o acc,
  one_number Hs x -> one_number Bt b -> one_number beta be -> one_number Ns n -> entries fe = [f] -> one_number N o ->
  let scalar := Takahashi1990.hacc_loop disper fuel n x t b be g d f h o in
  let call := ArrTakahashi1990.hacc_loop disper fuel Ns Hs (float t) Bt beta g (float d) fe (float h) N acc in
  match value scalar with
  | Ok y => exists l, call = (warns scalar, Ok (acc ++ l)) /\ ((l = [] /\ y = h /\ Bool.eqb f (n <? o)%num = false) \/ exists l', l = l' ++ [y])
  | Err e => call = (warns scalar, Err e)
  end.
Proof.
  induction fuel as [|fuel IH]; intros * O1 O2 O3 O4 O5 O6; cbv zeta; cbn [ArrTakahashi1990.hacc_loop Takahashi1990.hacc_loop];
    destruct (lift2_one nlt Ns N n o O4 O6) as (c & Ec & Oc); destruct (lift2_one Bool.eqb fe c f (n <? o)%num O5 Oc) as (s & Es & Os).
  - assert (Q : lift2 Bool.eqb (ret fe) (value_of Ns <? value_of N)%arr = ret s).
    { unfold cmp. change (value_of Ns) with (ret Ns). change (value_of N) with (ret N). change nums with (arr num) in *. rewrite Ec. exact Es. }
    rewrite Q, bind_ret_l, (truth_entries _ _ Os), bind_ret_l. destruct (Bool.eqb f _) eqn:T; [reflexivity|].
    cbn. exists []. rewrite app_nil_r. split; [reflexivity|left; auto].
  - assert (Q : lift2 Bool.eqb (ret fe) (value_of Ns <? value_of N)%arr = ret s).
    { unfold cmp. change (value_of Ns) with (ret Ns). change (value_of N) with (ret N). change nums with (arr num) in *. rewrite Ec. exact Es. }
    rewrite Q, bind_ret_l, (truth_entries _ _ Os), bind_ret_l. destruct (Bool.eqb f _) eqn:T.
    + change (value_of (float h) + value_of (float d))%arr with (ret (float (h + d)%num)). rewrite bind_ret_l.
      destruct (Ns_one disper Hs t (h + d)%num Bt beta g x b be O1 O2 O3) as (r & y & Or & E & Ey). rewrite E.
      specialize (IH Ns Hs Bt beta x b be t g d n fe f (h + d)%num r y (acc ++ [(h + d)%num]) O1 O2 O3 O4 O5 Or). cbv zeta in IH.
      rewrite value_bind, warns_bind, Ey. destruct (value (Takahashi1990.hacc_loop _ _ _ _ _ _ _ _ _ _ _ _)) as [z|e].
      * destruct IH as (l & IH & K). exists ((h + d)%num :: l). rewrite <- app_assoc in IH. split; [apply bind_ok, IH|].
        right. destruct K as [(-> & -> & _)|(l' & ->)]; [exists []; reflexivity|exists ((h + d)%num :: l'); reflexivity].
      * apply bind_ok, IH.
    + cbn. exists []. rewrite app_nil_r. split; [reflexivity|left; auto].
Qed.
Lemma last_of_snoc l y : ArrTakahashi1990.last_of (l ++ [y]) = ret (float y).
Proof. unfold ArrTakahashi1990.last_of. rewrite rev_app_distr. reflexivity. Qed.
Lemma same_bind {A B} w (r : A) s (k : A -> M B) m : value s = Ok tt -> warns s = w -> k r = m -> bind (w, Ok r) k = (s ;; m).
Proof. destruct s as [w' v]. cbn. intros -> -> <-. reflexivity. Qed.

Lemma stage_one disper fuel (Ns : nums) Bt beta x b be t g d n h : one_number Bt b -> one_number beta be -> one_number Ns n ->
  (Ns_out <- ArrTakahashi1990.calculate_stability_number_Ns disper (float x) (float t) (float h) Bt beta g ;;
   firsteval <- (Ns <? Ns_out)%arr ;;
   hacc_array <- ArrTakahashi1990.hacc_loop disper fuel Ns (float x) (float t) Bt beta g (float d) firsteval (float h) Ns_out [] ;;
   ArrTakahashi1990.last_of hacc_array)
  = (o <- Takahashi1990.calculate_stability_number_Ns disper x t h b be g ;;
     y <- Takahashi1990.hacc_loop disper fuel n x t b be g d (n <? o)%num h o ;; ret (float y)).
Proof.
  intros O2 O3 O4. destruct (Ns_one disper (float x) t h Bt beta g x b be eq_refl O2 O3) as (r & o & Or & E & Eo).
  destruct (lift2_one nlt Ns r n o O4 Or) as (c & Ec & Oc).
  pose proof (loop_one disper fuel Ns (float x) Bt beta x b be t g d n c (n <? o)%num h r o [] eq_refl O2 O3 O4 Oc Or) as K. cbv zeta in K.
  rewrite E. destruct (Takahashi1990.calculate_stability_number_Ns disper x t h b be g) as [w v]. cbn in Eo. subst v. cbn [warns fst].
  assert (Q : (value_of Ns <? value_of r)%arr = ret c) by exact Ec.
  destruct (Takahashi1990.hacc_loop disper fuel n x t b be g d (n <? o)%num h o) as [w' [y|e]] eqn:EH; cbn [value warns fst snd] in K.
  - destruct K as (l & K & [(_ & _ & F)|(l' & ->)]); [rewrite eqb_reflx in F; discriminate F|]. cbn [app] in K.
    rewrite (bind_ok w r _ w' (Ok (float y))); [|rewrite (skip _ _ c _ Q eq_refl), K, (bind_ok w' _ _ [] (Ok (float y))); [rewrite app_nil_r; reflexivity|apply last_of_snoc]].
    symmetry. apply bind_ok. rewrite EH. cbn. rewrite app_nil_r. reflexivity.
  - rewrite (bind_ok w r _ w' (Err e)); [|rewrite (skip _ _ c _ Q eq_refl), K; reflexivity].
    symmetry. apply bind_ok. rewrite EH. reflexivity.
Qed.

(** With one float as wave height, one float as period and one number for the others this
    is the search with numbers. *)
Theorem C72_depth : forall disper fuel Dn50 t x Bt rho_rock rho_water beta g d b r w be,
  one_number Dn50 d -> one_number Bt b -> one_number rho_rock r -> one_number rho_water w -> one_number beta be ->
  ArrTakahashi1990.calculate_significant_depth_above_toe_hacc disper fuel Dn50 (float t) (float x) Bt rho_rock rho_water beta g
  = (y <- Takahashi1990.calculate_significant_depth_above_toe_hacc disper fuel d t x b r w be g ;; ret (float y)).
Proof.
  intros * O1 O2 O3 O4 O5.
  assert (X : expression [rho_rock; rho_water; Dn50] (De <- calculate_buoyant_density_Delta rho_rock rho_water ;; (float x / (De * Dn50))%arr)
     (fun i => (x / (CorePhysics.calculate_buoyant_density_Delta (place i rho_rock) (place i rho_water) * place i Dn50))%num)) by expression_tac.
  apply one_at in O1 as (S1 & <-), O3 as (S3 & <-), O4 as (S4 & <-).
  destruct (settled _ _ _ (Some 1) X) as (Ns & E & _ & SN & V); [autounfold with arrays; quiet_tac|repeat (constructor; [assumption|]); constructor|].
  specialize (V 0 (le_n 1)).
  set (n := (x / (CorePhysics.calculate_buoyant_density_Delta (place 0 rho_rock) (place 0 rho_water) * place 0 Dn50))%num) in *.
  assert (ON : one_number Ns n) by (apply one_at; split; assumption).
  assert (Q : ArrTakahashi1990.calculate_significant_depth_above_toe_hacc disper fuel Dn50 (float t) (float x) Bt rho_rock rho_water beta g
     = (hacc <- (Ns_out <- ArrTakahashi1990.calculate_stability_number_Ns disper (float x) (float t) (float (x / #20)%num) Bt beta g ;;
          firsteval <- (Ns <? Ns_out)%arr ;;
          hacc_array <- ArrTakahashi1990.hacc_loop disper fuel Ns (float x) (float t) Bt beta g (float (x / #20)%num) firsteval (float (x / #20)%num) Ns_out [] ;;
          ArrTakahashi1990.last_of hacc_array) ;;
        if (x / #20 >? #0.001)%num then
          hacc_in <- (hacc - float (x / #20)%num)%arr ;;
          (Ns_out <- ArrTakahashi1990.calculate_stability_number_Ns disper (float x) (float t) hacc_in Bt beta g ;;
           firsteval <- (Ns <? Ns_out)%arr ;;
           hacc_array <- ArrTakahashi1990.hacc_loop disper fuel Ns (float x) (float t) Bt beta g (lit 0.001) firsteval hacc_in Ns_out [] ;;
           ArrTakahashi1990.last_of hacc_array)
        else ret hacc)).
  { unfold ArrTakahashi1990.calculate_significant_depth_above_toe_hacc.
    transitivity (Ns <- (De <- calculate_buoyant_density_Delta rho_rock rho_water ;; (float x / (De * Dn50))%arr) ;;
        dht <- (float x / lit 20)%arr ;;
        Ns_out <- ArrTakahashi1990.calculate_stability_number_Ns disper (float x) (float t) dht Bt beta g ;;
        firsteval <- (Ns <? Ns_out)%arr ;;
        hacc_array <- ArrTakahashi1990.hacc_loop disper fuel Ns (float x) (float t) Bt beta g dht firsteval dht Ns_out [] ;;
        hacc <- ArrTakahashi1990.last_of hacc_array ;;
        coarse <- holds (dht >? lit 0.001)%arr ;;
        if coarse : bool then
          hacc_in <- (hacc - dht)%arr ;;
          (Ns_out <- ArrTakahashi1990.calculate_stability_number_Ns disper (float x) (float t) hacc_in Bt beta g ;;
           firsteval <- (Ns <? Ns_out)%arr ;;
           hacc_array <- ArrTakahashi1990.hacc_loop disper fuel Ns (float x) (float t) Bt beta g (lit 0.001) firsteval hacc_in Ns_out [] ;;
           ArrTakahashi1990.last_of hacc_array)
        else ret hacc).
    { rewrite bind_assoc. apply bind_ext. intros De. first_tac. reflexivity. }
    rewrite E, bind_ret_l. apply (skip _ _ (float (x / #20)%num) _ eq_refl).
    rewrite bind_assoc. apply bind_ext. intros Ns_out. rewrite bind_assoc. apply bind_ext. intros fe. rewrite bind_assoc. apply bind_ext. intros l.
    apply bind_ext. intros hacc. apply (skip _ _ (x / #20 >? #0.001)%num _ eq_refl). reflexivity. }
  rewrite Q, (stage_one disper fuel Ns Bt beta x b be t g (x / #20)%num n (x / #20)%num O2 O5 ON). clear Q.
  unfold Takahashi1990.calculate_significant_depth_above_toe_hacc. rewrite stability_Ns, !bind_ret_l. cbv zeta. cbn [fst].
  fold n. rewrite !bind_assoc. apply bind_ext. intros o. rewrite !bind_assoc. apply bind_ext. intros y. rewrite bind_ret_l.
  destruct (x / #20 >? #0.001)%num; [|rewrite bind_ret_l; reflexivity].
  apply (skip _ _ (float (y - x / #20)%num) _ eq_refl).
  change (lit 0.001) with (float #0.001%num). rewrite (stage_one disper fuel Ns Bt beta x b be t g #0.001%num n (y - x / #20)%num O2 O5 ON).
  rewrite !bind_assoc. reflexivity.
Qed.
Lemma last_float l hacc : value (ArrTakahashi1990.last_of l) = Ok hacc -> exists y, hacc = float y.
Proof. unfold ArrTakahashi1990.last_of. destruct (rev l) as [|y]; intros E; [discriminate E|]. injection E as <-. exists y. reflexivity. Qed.
Lemma bind_known {A B} (m : M A) (k k' : A -> M B) : (forall x, value m = Ok x -> k x = k' x) -> bind m k = bind m k'.
Proof. intros H. destruct m as [w [a|e]]; unfold bind; cbn; [rewrite H by reflexivity|]; reflexivity. Qed.
Lemma loop_first disper fuel : forall Ns Hs t ts Bt beta g d fe h N acc,
  ArrTakahashi1990.hacc_loop disper fuel Ns Hs (Ar (t :: ts)) Bt beta g (float d) fe (float h) N acc
  = ArrTakahashi1990.hacc_loop disper fuel Ns Hs (float t) Bt beta g (float d) fe (float h) N acc.
Proof.
  induction fuel as [|fuel IH]; intros; cbn [ArrTakahashi1990.hacc_loop]; [reflexivity|].
  apply bind_ext. intros s. apply bind_ext. intros [|]; [|reflexivity].
  change (value_of (float h) + value_of (float d))%arr with (ret (float (h + d)%num)). rewrite !bind_ret_l, C72_Ns_first.
  apply bind_ext. intros No. apply IH.
Qed.

(** Of several periods with one float as wave height only the first one counts. *)
Theorem C72_depth_first : forall disper fuel Dn50 t ts x Bt rho_rock rho_water beta g,
  ArrTakahashi1990.calculate_significant_depth_above_toe_hacc disper fuel Dn50 (Ar (t :: ts)) (float x) Bt rho_rock rho_water beta g
  = ArrTakahashi1990.calculate_significant_depth_above_toe_hacc disper fuel Dn50 (float t) (float x) Bt rho_rock rho_water beta g.
Proof.
  intros. unfold ArrTakahashi1990.calculate_significant_depth_above_toe_hacc. apply bind_ext. intros De. apply bind_ext. intros Ns.
  change (value_of (float x) / value_of (lit 20))%arr with (ret (float (x / #20)%num)). rewrite !bind_ret_l, C72_Ns_first.
  apply bind_ext. intros No. apply bind_ext. intros fe. rewrite loop_first. apply bind_ext. intros l. apply bind_known. intros hacc E.
  apply last_float in E as (y & ->). apply bind_ext. intros [|]; [|reflexivity].
  change (value_of (float y) - value_of (float (x / #20)%num))%arr with (ret (float (y - x / #20)%num)). rewrite !bind_ret_l, C72_Ns_first.
  apply bind_ext. intros No'. apply bind_ext. intros fe'. change (lit 0.001) with (float #0.001%num). rewrite loop_first. reflexivity.
Qed.

(** What happens before the truth value of the first test *)
Definition tried disper (Dn50 Tp Hs Bt rho_rock rho_water beta : nums) g : M (arr bool) :=
  Delta <- calculate_buoyant_density_Delta rho_rock rho_water ;;
  Ns <- (Hs / (Delta * Dn50))%arr ;;
  dht <- (Hs / lit 20)%arr ;;
  Ns_out <- ArrTakahashi1990.calculate_stability_number_Ns disper Hs Tp dht Bt beta g ;;
  firsteval <- (Ns <? Ns_out)%arr ;;
  lift2 Bool.eqb (ret firsteval) (Ns <? Ns_out)%arr.
Lemma depth_tried disper fuel Dn50 Tp Hs Bt rho_rock rho_water beta g e :
  value (holds (tried disper Dn50 Tp Hs Bt rho_rock rho_water beta g)) = Err e ->
  value (ArrTakahashi1990.calculate_significant_depth_above_toe_hacc disper fuel Dn50 Tp Hs Bt rho_rock rho_water beta g) = Err e.
Proof.
  unfold holds, tried, ArrTakahashi1990.calculate_significant_depth_above_toe_hacc. rewrite !value_bind.
  destruct (value (calculate_buoyant_density_Delta _ _)) as [De|]; [|intros E; injection E as ->; reflexivity]. rewrite !value_bind. first_tac.
  destruct (value (Hs / (De * Dn50))%arr) as [Ns|]; [|intros E; injection E as ->; reflexivity]. rewrite !value_bind.
  destruct (value (Hs / lit 20)%arr) as [dht|]; [|intros E; injection E as ->; reflexivity]. rewrite !value_bind.
  destruct (value (ArrTakahashi1990.calculate_stability_number_Ns _ _ _ _ _ _ _)) as [No|]; [|intros E; injection E as ->; reflexivity]. rewrite !value_bind.
  destruct (value (Ns <? No)%arr) as [fe|]; [|intros E; injection E as ->; reflexivity]. rewrite !value_bind.
  destruct fuel; cbn [ArrTakahashi1990.hacc_loop]; rewrite !value_bind;
    (destruct (value (lift2 Bool.eqb (ret fe) (Ns <? No)%arr)) as [s|]; [|intros E; injection E as ->; reflexivity]; rewrite !value_bind;
     destruct (value (truth s)); intros E; [discriminate E|injection E as ->; reflexivity]).
Qed.

Lemma step_shape Hs dht : value (value_of Hs / value_of (lit 20))%arr = Ok dht -> shape dht = shape Hs.
Proof. destruct Hs as [x|l]; cbn; intros E; injection E as <-; cbn; [reflexivity|rewrite map_length; reflexivity]. Qed.
Lemma step_known Hs : exists dht, value (value_of Hs / value_of (lit 20))%arr = Ok dht /\ shape dht = shape Hs.
Proof. destruct Hs as [x|l]; eexists; split; try reflexivity. cbn. rewrite map_length. reflexivity. Qed.
Lemma paired_shape T h h' : shape h = shape h' -> paired T h -> paired T h'.
Proof. unfold paired. intros ->. auto. Qed.

(** Everything that takes part has to be one number for the truth value *)
Lemma tried_needs disper Dn50 Tp Hs Bt rho_rock rho_water beta g v :
  value (holds (tried disper Dn50 Tp Hs Bt rho_rock rho_water beta g)) = Ok v ->
  Forall (fun a => exists x, one_number a x) [Dn50; Hs; Bt; rho_rock; rho_water; beta].
Proof.
  intros E. take E s Es. apply truth_one in E as (S & _). unfold tried in Es.
  take Es De H1. take Es Ns H2. take Es dht H3. take Es No H4. take Es f1 H5.
  rewrite Ns_split in H4. take H4 L HL. take H4 q H6. take H4 u Hu. injection H4 as <-. clear Hu HL.
  pose proof (proj1 (proj2 (number_expression Hs L dht Bt (radians beta))) q H6) as UN. cbn [map] in UN. rewrite radians_shape in UN. clear H6.
  used H1 [shape rho_rock; shape rho_water]. used H2 [shape Hs; shape rho_rock; shape rho_water; shape Dn50].
  assert (UE : uses (lift2 Bool.eqb (ret f1) (Ns <? q)%arr) [shape Hs; shape rho_rock; shape rho_water; shape Dn50; shape Bt; shape beta]).
  { eapply uses_incl; [eapply uses_lift2; [apply (uses_nothing)|uses_tac]|incl_tac]. }
  specialize (UE s Es). clear - UE S. args_tac.
  repeat (constructor; [apply one_shape; eauto using stretches_trans|]). constructor.
Qed.
Lemma Delta_Ns_expression (Hs Dn50 rho_rock rho_water : nums) :
  expression [Hs; Dn50; rho_rock; rho_water] (De <- calculate_buoyant_density_Delta rho_rock rho_water ;; (Hs / (De * Dn50))%arr)
     (fun i => (place i Hs / (CorePhysics.calculate_buoyant_density_Delta (place i rho_rock) (place i rho_water) * place i Dn50))%num).
Proof. expression_tac. Qed.
Lemma tried_start disper Dn50 Tp Hs Bt rho_rock rho_water beta g :
  tried disper Dn50 Tp Hs Bt rho_rock rho_water beta g
  = (Ns <- (De <- calculate_buoyant_density_Delta rho_rock rho_water ;; (Hs / (De * Dn50))%arr) ;;
     dht <- (Hs / lit 20)%arr ;;
     Ns_out <- ArrTakahashi1990.calculate_stability_number_Ns disper Hs Tp dht Bt beta g ;;
     firsteval <- (Ns <? Ns_out)%arr ;;
     lift2 Bool.eqb (ret firsteval) (Ns <? Ns_out)%arr).
Proof. unfold tried. rewrite bind_assoc. reflexivity. Qed.

Lemma tried_tame disper Dn50 Tp Hs Bt rho_rock rho_water beta g :
  (forall dht, shape dht = shape Hs -> exists L, value (ArrGoda1985.calculate_local_wavelength disper Tp dht g) = Ok L) ->
  tame (holds (tried disper Dn50 Tp Hs Bt rho_rock rho_water beta g)).
Proof.
  intros H. apply tame_bind; [|intros s _; destruct s as [x|[|x [|z l]]]; first [apply tame_ret|apply tame_raise]].
  rewrite tried_start. apply tame_bind; [apply (Delta_Ns_expression Hs Dn50 rho_rock rho_water)|]. intros Ns _.
  apply tame_bind; [tame_tac|]. intros dht E. apply step_shape in E. destruct (H dht E) as (L & EL).
  apply tame_bind.
  { intros e Ee. rewrite (Ns_value _ _ _ _ _ _ _ _ EL) in Ee. revert e Ee. apply (number_expression Hs L dht Bt (radians beta)). }
  intros No _. apply tame_bind; [tame_tac|]. intros f _. tame_tac.
Qed.

(** Wave heights, stones and densities that do not go together are noticed first; the
    search wants one float as wave height and one number for the others. *)
Theorem C72_depth_stop : forall disper fuel Dn50 Tp Hs Bt rho_rock rho_water beta g,
  let call := ArrTakahashi1990.calculate_significant_depth_above_toe_hacc disper fuel Dn50 Tp Hs Bt rho_rock rho_water beta g in
  (~ compatible [Hs; Dn50; rho_rock; rho_water] -> value call = Err ValueError)
  /\ (compatible [Hs; Dn50; rho_rock; rho_water] ->
        (shape Hs <> None -> ~ paired Tp Hs -> value call = Err UnboundLocalError)
        /\ (shape Hs <> None -> paired Tp Hs -> value call = Err ValueError)
        /\ (shape Hs = None -> Tp = Ar [] -> value call = Err IndexError)
        /\ (shape Hs = None -> Tp <> Ar [] -> Exists (fun a => forall x, ~ one_number a x) [Dn50; Bt; rho_rock; rho_water; beta] ->
            value call = Err ValueError)).
Proof.
  intros. assert (X := Delta_Ns_expression Hs Dn50 rho_rock rho_water). destruct (step_known Hs) as (dht & Ed & Sd).
  split.
  - intros N. apply depth_tried. rewrite tried_start. unfold holds. rewrite value_bind, value_bind, (expression_raises _ _ _ X N). reflexivity.
  - intros (sh & F). destruct (settle _ _ _ _ X F) as (Ns & EN & _). split; [|split; [|split]].
    + intros S P. apply depth_tried. rewrite tried_start. unfold holds. rewrite value_bind, value_bind, EN, value_bind, Ed, value_bind.
      rewrite (proj2 (C72_Ns_stop disper Hs Tp dht Bt beta g)); [reflexivity|rewrite Sd; exact S|].
      intros Q. apply P. eapply paired_shape; [exact Sd|exact Q].
    + intros S P. apply depth_tried. apply tame_raises.
      * apply tried_tame. intros d Q. destruct (wavelength_paired disper Tp d g) as (L & E & _); [eapply paired_shape; [symmetry; exact Q|exact P]|].
        exists L. exact E.
      * intros v E. apply tried_needs in E. inversion E as [|? ? _ E']; subst. inversion E' as [|? ? (x & O) _]; subst.
        destruct P as [(_ & P)|(n & N & P & _)]; [exact (S P)|]. apply one_at in O as (O & _). rewrite P in O.
        destruct O as [O|[(O & _)|O]]; [discriminate O| |]; injection O as O; lia.
    + intros S T. apply depth_tried. rewrite tried_start. unfold holds. rewrite value_bind, value_bind, EN, value_bind, Ed, value_bind.
      rewrite (proj1 (C72_Ns_stop disper Hs Tp dht Bt beta g)); [reflexivity|exact T|rewrite Sd; exact S].
    + intros S T N. apply depth_tried. apply tame_raises.
      * apply tried_tame. intros d Q. rewrite S in Q. destruct d as [d|]; [|discriminate Q].
        destruct Tp as [t|[|t ts]]; [| |]; [eexists; reflexivity|congruence|eexists; reflexivity].
      * intros v E. apply tried_needs in E. rewrite Forall_forall in E. apply Exists_exists in N as (a & I & N).
        destruct (E a) as (x & O); [cbn in I |- *; tauto|exact (N x O)].
Qed.
(** ** Example: three wave heights, two depths with two periods, one depth in an array; searches *)
Example C72_example : forall disper fuel,
  let Ns Hs Tp hacc := ArrTakahashi1990.calculate_stability_number_Ns disper Hs Tp hacc (lit 5) (lit 0) (Fin 9.81) in
  let depth Tp Hs Dn50 := ArrTakahashi1990.calculate_significant_depth_above_toe_hacc disper fuel Dn50 Tp Hs (lit 5) (lit 2650) (lit 1025) (lit 0) (Fin 9.81) in
  (exists r, value (Ns (Ar [Fin 2; Fin 3; Fin 4]) (lit 12) (lit 6)) = Ok r /\ shape r = Some 3
     /\ value (Takahashi1990.calculate_stability_number_Ns disper (Fin 4) (Fin 12) (Fin 6) (Fin 5) (Fin 0) (Fin 9.81)) = Ok (place 2 r))
  /\ (exists r, value (Ns (lit 2) (Ar [Fin 10; Fin 12]) (Ar [Fin 6; Fin 7])) = Ok r /\ shape r = Some 2
     /\ value (Takahashi1990.calculate_stability_number_Ns disper (Fin 2) (Fin 12) (Fin 7) (Fin 5) (Fin 0) (Fin 9.81)) = Ok (place 1 r))
  /\ value (Ns (lit 2) (lit 12) (Ar [Fin 6])) = Err UnboundLocalError
  /\ value (Ns (Ar [Fin 2; Fin 3; Fin 4]) (lit 12) (Ar [Fin 6; Fin 7])) = Err ValueError
  /\ value (depth (lit 12) (Ar [Fin 2; Fin 3]) (lit 1)) = Err ValueError
  /\ value (depth (lit 12) (Ar [Fin 2]) (lit 1)) = Err UnboundLocalError
  /\ value (depth (lit 12) (lit 2) (Ar [Fin 1; Fin 2])) = Err ValueError
  /\ value (depth (lit 12) (lit 2) (Ar [Fin 1]))
     = value (y <- Takahashi1990.calculate_significant_depth_above_toe_hacc disper fuel (Fin 1) (Fin 12) (Fin 2) (Fin 5) (Fin 2650) (Fin 1025) (Fin 0) (Fin 9.81) ;; ret (float y)).
Proof.
  intros disper fuel Ns depth.
  assert (P1 : paired (lit 12) (lit 6)) by (left; split; reflexivity).
  assert (P2 : paired (Ar [Fin 10; Fin 12]) (Ar [Fin 6; Fin 7])) by (right; exists 2; split; [repeat constructor|]; split; [reflexivity|right; reflexivity]).
  assert (P3 : paired (lit 12) (Ar [Fin 6; Fin 7])) by (right; exists 2; split; [repeat constructor|]; split; [reflexivity|left; reflexivity]).
  split; [|split; [|split; [|split; [|split; [|split; [|split]]]]]].
  - destruct (C72_Ns disper (Ar [Fin 2; Fin 3; Fin 4]) (lit 12) (lit 6) (lit 5) (lit 0) (Fin 9.81) P1) as (K & _).
    destruct (K (Some 3)) as (r & E & S & V); [split; [apply shapes_ok; reflexivity|right; left; reflexivity]|].
    exists r. split; [exact E|]. split; [exact S|]. apply (V 2). repeat constructor.
  - destruct (C72_Ns disper (lit 2) (Ar [Fin 10; Fin 12]) (Ar [Fin 6; Fin 7]) (lit 5) (lit 0) (Fin 9.81) P2) as (K & _).
    destruct (K (Some 2)) as (r & E & S & V); [split; [apply shapes_ok; reflexivity|right; right; left; reflexivity]|].
    exists r. split; [exact E|]. split; [exact S|]. apply (V 1). repeat constructor.
  - reflexivity.
  - destruct (C72_Ns disper (Ar [Fin 2; Fin 3; Fin 4]) (lit 12) (Ar [Fin 6; Fin 7]) (lit 5) (lit 0) (Fin 9.81) P3) as (_ & K).
    apply K. intros (sh & F). args_tac. cbn in *.
    repeat match goal with H : stretches _ _ |- _ => destruct H as [H|[(H & _)|H]]; try discriminate H end; congruence.
  - destruct (C72_depth_stop disper fuel (lit 1) (lit 12) (Ar [Fin 2; Fin 3]) (lit 5) (lit 2650) (lit 1025) (lit 0) (Fin 9.81)) as (_ & K).
    destruct K as (_ & K & _); [exists (Some 2); apply shapes_ok; reflexivity|]. apply K; [discriminate|].
    right; exists 2; split; [repeat constructor|]; split; [reflexivity|left; reflexivity].
  - destruct (C72_depth_stop disper fuel (lit 1) (lit 12) (Ar [Fin 2]) (lit 5) (lit 2650) (lit 1025) (lit 0) (Fin 9.81)) as (_ & K).
    destruct K as (K & _); [exists (Some 1); apply shapes_ok; reflexivity|]. apply K; [discriminate|].
    intros [(_ & Q)|(n & N & Q & _)]; [discriminate Q|]. injection Q as <-. exact (Nat.lt_irrefl _ N).
  - destruct (C72_depth_stop disper fuel (Ar [Fin 1; Fin 2]) (lit 12) (lit 2) (lit 5) (lit 2650) (lit 1025) (lit 0) (Fin 9.81)) as (_ & K).
    destruct K as (_ & _ & _ & K); [exists (Some 2); apply shapes_ok; reflexivity|]. apply K; [reflexivity|discriminate|]. left. intros x Q. discriminate Q.
  - exact (f_equal value (C72_depth disper fuel (Ar [Fin 1]) (Fin 12) (Fin 2) (lit 5) (lit 2650) (lit 1025) (lit 0) (Fin 9.81) (Fin 1) (Fin 5) (Fin 2650) (Fin 1025) (Fin 0)
      eq_refl eq_refl eq_refl eq_refl eq_refl)).
Qed.
