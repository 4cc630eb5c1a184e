(** Property C71: wave forces on caissons, Goda (1985), with arrays. *)
From Coq Require Import Reals Lra Lia List Bool Arith.
From Verif.Lib Require Import Num Monad Arr ArrFlags ArrLoop RTac NTac.
From Verif.Spec Require Import Arrays ArrayFlags ArrayStacks ArrayLoops ArrayOne ArrayWide ArrayWarnings ArrayCalls ArrayCaisson.
From Verif.Model Require Import CoreUtility ArrCore.
From Verif.Model Require CorePhysics Goda1985 ArrGoda1985.
From Verif.Proofs Require Goda.
From Verif.Proofs Require Import Warns Core CheckTac Arrays ArrayLoops ArrayFlags ArrayTaw ArrayStacks ArrayWarnings ArrayCalls ArrayOne ArrayWide ArrayCaisson.
Import ListNotations.
Open Scope nat_scope.

#[local] Hint Unfold ArrGoda1985.calculate_Wup : arrays.

(** ** Weight, safety factors, bearing pressure *)

Theorem C71_weight : forall hacc Rc Bup below rho_water above g,
  place_by_place [hacc; Rc; Bup; below; rho_water; above; g]
    (ArrGoda1985.calculate_Wup hacc Rc Bup below rho_water above g)
    (fun at_ => Ok (Goda1985.calculate_Wup (at_ hacc) (at_ Rc) (at_ Bup) (at_ below) (at_ rho_water) (at_ above) (at_ g))).
Proof. intros. eapply place_by_place_intro; [reflexivity|expression_tac|intros; reflexivity]. Qed.

(** The two factors each depend on their own arguments. *)
Theorem C71_safety : forall FU FH Wup muf tup MH MU,
  let call := ArrGoda1985.calculate_safety_factors FU FH Wup muf tup MH MU in
  (forall sh sh', common [FU; FH; Wup; muf] sh -> common [Wup; tup; MH; MU] sh' ->
     exists s o, value call = Ok (s, o) /\ shape s = sh /\ shape o = sh'
     /\ (forall i, inside sh i -> forall t m u, fst (Goda1985.calculate_safety_factors (place i FU) (place i FH) (place i Wup) (place i muf) t m u) = place i s)
     /\ (forall i, inside sh' i -> forall f h m, snd (Goda1985.calculate_safety_factors f h (place i Wup) m (place i tup) (place i MH) (place i MU)) = place i o))
  /\ (~ compatible [FU; FH; Wup; muf] \/ ~ compatible [Wup; tup; MH; MU] -> value call = Err ValueError).
Proof.
  intros FU FH Wup muf tup MH MU call.
  assert (X : expression [FU; FH; Wup; muf] (muf * (Wup - FU) / FH)%arr (fun i => (place i muf * (place i Wup - place i FU) / place i FH)%num)) by expression_tac.
  assert (X' : expression [Wup; tup; MH; MU] (((Wup * tup) - MU) / MH)%arr (fun i => ((place i Wup * place i tup - place i MU) / place i MH)%num)) by expression_tac.
  split.
  - intros sh sh' C C'. destruct (expression_whole _ _ _ X sh C) as (s & E & S & V). destruct (expression_whole _ _ _ X' sh' C') as (o & E' & S' & V').
    exists s, o. split; [apply (steps _ _ s _ E), (steps _ _ o _ E'); reflexivity|]. split; [exact S|]. split; [exact S'|].
    split; intros i I; intros.
    + assert (P : place i s = (place i muf * (place i Wup - place i FU) / place i FH)%num) by (unfold place at 1; rewrite (V i I); reflexivity). rewrite P. reflexivity.
    + assert (P : place i o = ((place i Wup * place i tup - place i MU) / place i MH)%num) by (unfold place at 1; rewrite (V' i I); reflexivity). rewrite P. reflexivity.
  - intros [N|N].
    + unfold call, ArrGoda1985.calculate_safety_factors. rewrite value_bind, (expression_raises _ _ _ X N). reflexivity.
    + apply tame_raises; [unfold call, ArrGoda1985.calculate_safety_factors; tame_tac|].
      intros (s, o) E. apply step in E as (s' & _ & E). apply step in E as (o' & E' & _). apply N. exact (expression_compatible _ _ _ _ X' E').
Qed.

Theorem C71_bearing : forall Wup tup MH MU FU Bup,
  let call := ArrGoda1985.calculate_bearing_pressures Wup tup MH MU FU Bup in
  (forall w t mh mu fu b, one_number Wup w -> one_number tup t -> one_number MH mh -> one_number MU mu -> one_number FU fu -> one_number Bup b ->
     exists pe Me We te, value call = Ok (pe, Me, We, te)
     /\ exists pe' Me' We' te', Goda1985.calculate_bearing_pressures w t mh mu fu b = (pe', Me', We', te')
     /\ one_number pe pe' /\ one_number Me Me' /\ one_number We We' /\ one_number te te')
  /\ (Exists (fun a => forall x, ~ one_number a x) [Wup; tup; MH; MU; FU; Bup] -> value call = Err ValueError).
Proof.
  intros Wup tup MH MU FU Bup call.
  assert (X1 : expression [Wup; tup; MU; MH] (Wup * tup - MU - MH)%arr (fun i => (place i Wup * place i tup - place i MU - place i MH)%num)) by expression_tac.
  assert (X2 : expression [Wup; FU] (Wup - FU)%arr (fun i => (place i Wup - place i FU)%num)) by expression_tac.
  assert (X3 : forall Me We : nums, expression [Me; We] (Me / We)%arr (fun i => (place i Me / place i We)%num)) by (intros; expression_tac).
  split.
  - intros w t mh mu fu b O1 O2 O3 O4 O5 O6. apply one_at in O1 as (S1 & <-), O2 as (S2 & <-), O3 as (S3 & <-), O4 as (S4 & <-), O5 as (S5 & <-), O6 as (S6 & <-).
    destruct (settle _ _ _ (Some 1) X1) as (Me & E1 & _ & T1 & V1); [repeat (constructor; [assumption|]); constructor|].
    destruct (settle _ _ _ (Some 1) X2) as (We & E2 & _ & T2 & V2); [repeat (constructor; [assumption|]); constructor|].
    destruct (settle _ _ _ (Some 1) (X3 Me We)) as (te & E3 & _ & T3 & V3); [repeat (constructor; [assumption|]); constructor|].
    specialize (V1 0 (le_n 1)). specialize (V2 0 (le_n 1)). specialize (V3 0 (le_n 1)).
    assert (H : value (holds (te <=? lit 1 / lit 3 * Bup)%arr) = Ok (place 0 te <=? #1 / #3 * place 0 Bup)%num).
    { rewrite (holds_one _ (fun i => (place i te <=? #1 / #3 * place i Bup)%num)); [reflexivity|]. den_tac. }
    assert (X4 : exists pe, value (if (place 0 te <=? #1 / #3 * place 0 Bup)%num then ((lit 2 * We) / (lit 3 * te))%arr
         else ((lit 2 * We / Bup) * (lit 2 - lit 3 * (te / Bup)))%arr) = Ok pe /\ stretches (shape pe) (Some 1)
         /\ place 0 pe = if (place 0 te <=? #1 / #3 * place 0 Bup)%num then ((#2 * place 0 We) / (#3 * place 0 te))%num
             else ((#2 * place 0 We / place 0 Bup) * (#2 - #3 * (place 0 te / place 0 Bup)))%num).
    { destruct (_ <=? _)%num.
      - assert (X : expression [We; te] ((lit 2 * We) / (lit 3 * te))%arr (fun i => ((#2 * place i We) / (#3 * place i te))%num)) by expression_tac.
        destruct (settle _ _ _ (Some 1) X) as (pe & E4 & _ & T4 & V4); [repeat (constructor; [assumption|]); constructor|].
        exists pe. split; [exact E4|]. split; [exact T4|]. exact (V4 0 (le_n 1)).
      - assert (X : expression [We; Bup; te] ((lit 2 * We / Bup) * (lit 2 - lit 3 * (te / Bup)))%arr
           (fun i => ((#2 * place i We / place i Bup) * (#2 - #3 * (place i te / place i Bup)))%num)) by expression_tac.
        destruct (settle _ _ _ (Some 1) X) as (pe & E4 & _ & T4 & V4); [repeat (constructor; [assumption|]); constructor|].
        exists pe. split; [exact E4|]. split; [exact T4|]. exact (V4 0 (le_n 1)). }
    destruct X4 as (pe & E4 & T4 & V4).
    exists pe, Me, We, te. split.
    + apply (steps _ _ Me _ E1), (steps _ _ We _ E2), (steps _ _ te _ E3), (steps _ _ _ _ H), (steps _ _ pe _ E4). reflexivity.
    + do 4 eexists. split; [reflexivity|]. rewrite V3, V2, V1 in V4. rewrite V2, V1 in V3.
      repeat split; apply one_at; split; assumption.
  - intros N. apply tame_raises.
    + unfold call, ArrGoda1985.calculate_bearing_pressures. tame_tac.
    + intros r E. apply step in E as (Me & E1 & E). apply step in E as (We & E2 & E). apply step in E as (te & E3 & E). apply step in E as (v & H & _).
      apply expression_shape with (1 := X1) in E1 as (F1 & _). apply expression_shape with (1 := X2) in E2 as (F2 & _). apply expression_shape with (1 := X3 Me We) in E3 as (F3 & _).
      apply (holds_uses _ _ [shape te; shape Bup]) in H; [|eapply uses_incl; [uses_tac|incl_tac]].
      args_tac. ones_tac N.
Qed.

(** ** Wave length *)

(** Of several periods with one float as depth only the first one counts. *)
Theorem C71_wavelength : forall disper T h g,
  let call := ArrGoda1985.calculate_local_wavelength disper T h g in
  (paired T h -> exists L, value call = Ok L /\ shape L = shape h
     /\ forall i, inside (shape h) i -> place i L = CorePhysics.local_wavelength disper (place i T) (place i h) g)
  /\ (forall t ts x, T = Ar (t :: ts) -> h = float x -> value call = Ok (float (CorePhysics.local_wavelength disper t x g)))
  /\ (T = Ar [] -> shape h = None -> value call = Err IndexError)
  /\ (shape h <> None -> ~ paired T h -> value call = Err UnboundLocalError).
Proof.
  intros disper T h g call. split; [apply wavelength_paired|]. split; [|split].
  - intros t ts x -> ->. reflexivity.
  - intros -> H. destruct h; [reflexivity|discriminate H].
  - intros H N. destruct h as [|hs]; [exfalso; apply H; reflexivity|]. unfold call, ArrGoda1985.calculate_local_wavelength, CorePhysics.calculate_local_wavelength.
    cbn [ArrGoda1985.py]. destruct (Nat.ltb_spec 1 (length hs)) as [L|L]; [|reflexivity]. destruct T as [t|ts]; cbn [ArrGoda1985.py].
    + exfalso. apply N. right. exists (length hs). split; [exact L|]. split; [reflexivity|left; reflexivity].
    + destruct (Nat.eqb_spec (length hs) (length ts)) as [K|K]; [|reflexivity].
      exfalso. apply N. right. exists (length hs). split; [exact L|]. split; [reflexivity|right; cbn; congruence].
Qed.

(** ** Impulsive breaking *)

Lemma any_ones l : forall xs, Forall2 one_number l xs -> ArrGoda1985.any_is_nan l = ret (existsb isnan xs).
Proof.
  induction l as [|a l IH]; intros xs F; inversion F; subst; [reflexivity|]. cbn [ArrGoda1985.any_is_nan existsb].
  rewrite (one_is_nan _ _ H1), bind_ret_l. rewrite (IH _ H3). destruct (isnan y); reflexivity.
Qed.
Lemma all_holds l : forall bs, Forall2 (fun c b => holds c = ret b) l bs -> ArrGoda1985.all_hold l = ret (forallb (fun b => b) bs).
Proof.
  induction l as [|c l IH]; intros bs F; inversion F; subst; [reflexivity|]. cbn [ArrGoda1985.all_hold forallb].
  rewrite H1, bind_ret_l, (IH _ H3). destruct y; reflexivity.
Qed.

Lemma unless_ret (e b : bool) : (if e then ret false else ret b) = ret (negb e && b)%bool.
Proof. destruct e; reflexivity. Qed.
Lemma impulsive_ones beta B1 L cota s Rc Hsi d h_s b b1 l c st rc hs dd h :
  one_number beta b -> one_number B1 b1 -> one_number L l -> one_number cota c -> one_number s st -> one_number Rc rc ->
  one_number Hsi hs -> one_number d dd -> one_number h_s h ->
  ArrGoda1985.check_impulsive_breaking beta B1 L cota s Rc Hsi d h_s = Goda1985.check_impulsive_breaking b b1 l c st rc hs dd h.
Proof.
  intros O1 O2 O3 O4 O5 O6 O7 O8 O9. unfold ArrGoda1985.check_impulsive_breaking, Goda1985.check_impulsive_breaking.
  rewrite (any_ones _ [b; b1; l; c; st; rc; hs]) by (repeat (constructor; [assumption|]); constructor).
  rewrite (any_ones _ [b; b1; l; dd; h; rc; hs]) by (repeat (constructor; [assumption|]); constructor).
  apply one_at in O1 as (S1 & <-), O2 as (S2 & <-), O3 as (S3 & <-), O4 as (S4 & <-), O5 as (S5 & <-), O6 as (S6 & <-), O7 as (S7 & <-), O8 as (S8 & <-), O9 as (S9 & <-).
  rewrite (all_holds _ [(place 0 beta <? #20)%num; (place 0 B1 / place 0 L <? #0.02)%num; (place 0 cota <? #50)%num; (place 0 s <? #0.03)%num; (place 0 Rc / place 0 Hsi >? #0.3)%num]).
  2:{ repeat (constructor; [eapply (holds_den _ (fun i => _)); [quiet_tac|den_tac]|]). constructor. }
  rewrite (all_holds _ [(place 0 beta <? #20)%num; (#0.02 <? place 0 B1 / place 0 L)%num; (place 0 B1 / place 0 L <? #0.3)%num; (place 0 d / place 0 h_s <? #0.6)%num; (place 0 Rc / place 0 Hsi >? #0.3)%num]).
  2:{ repeat (constructor; [eapply (holds_den _ (fun i => _)); [quiet_tac|den_tac]|]). constructor. }
  rewrite !bind_ret_l, !unless_ret, !bind_ret_l. cbn [forallb]. rewrite !andb_true_r, !andb_assoc. reflexivity.
Qed.

Lemma impulsive_ok b b1 l c st rc hs dd h : exists w r, Goda1985.check_impulsive_breaking b b1 l c st rc hs dd h = (w, Ok r).
Proof.
  destruct (Goda.impulsive_ok b b1 l c st rc hs dd h) as (r & E). eexists _, r. unfold value in E. rewrite <- E. apply surjective_pairing.
Qed.
Lemma impulsive_unknown beta B1 L cota s Rc Hsi d h_s b : one_number beta b -> one_number B1 NaN ->
  ArrGoda1985.check_impulsive_breaking beta B1 L cota s Rc Hsi d h_s = ret false.
Proof.
  intros O N. unfold ArrGoda1985.check_impulsive_breaking. cbn [ArrGoda1985.any_is_nan].
  rewrite (one_is_nan _ _ O), (one_is_nan _ _ N), !bind_ret_l. destruct (isnan b); reflexivity.
Qed.
Lemma impulsive_unknown_scalar beta L cota s Rc Hsi d h_s : Goda1985.check_impulsive_breaking beta NaN L cota s Rc Hsi d h_s = ret false.
Proof. unfold Goda1985.check_impulsive_breaking. cbn [existsb isnan]. rewrite !orb_true_r. reflexivity. Qed.

(** With one number each this is the scalar check, and with NaN as width of the berm there is
    no impulsive breaking whatever the others are; otherwise an argument with several entries
    or none is a ValueError, unless NaN comes before it. *)
Theorem C71_impulsive :
  (forall beta B1 L cota s Rc Hsi d h_s b b1 l c st rc hs dd h,
     Forall2 one_number [beta; B1; L; cota; s; Rc; Hsi; d; h_s] [b; b1; l; c; st; rc; hs; dd; h] ->
     ArrGoda1985.check_impulsive_breaking beta B1 L cota s Rc Hsi d h_s = Goda1985.check_impulsive_breaking b b1 l c st rc hs dd h)
  /\ (forall beta B1 L cota s Rc Hsi d h_s b, one_number beta b -> one_number B1 NaN ->
     ArrGoda1985.check_impulsive_breaking beta B1 L cota s Rc Hsi d h_s = ret false)
  /\ (forall beta B1 L cota s Rc Hsi d h_s before a after xs,
     [beta; B1; L; cota; s; Rc; Hsi] = before ++ a :: after -> Forall2 one_number before xs -> Forall (fun x => isnan x = false) xs ->
     (forall x, ~ one_number a x) ->
     value (ArrGoda1985.check_impulsive_breaking beta B1 L cota s Rc Hsi d h_s) = Err ValueError).
Proof.
  split; [|split].
  - intros * F. repeat match goal with H : Forall2 _ (_ :: _) _ |- _ => inversion H; subst; clear H end. apply impulsive_ones; assumption.
  - intros * O N. exact (impulsive_unknown _ _ _ _ _ _ _ _ _ _ O N).
  - intros * E F N K. unfold ArrGoda1985.check_impulsive_breaking. rewrite E. rewrite value_bind.
    assert (H : value (ArrGoda1985.any_is_nan (before ++ a :: after)) = Err ValueError); [|rewrite H; reflexivity].
    clear E. revert xs F N. induction before as [|z l IH]; intros xs F N; cbn [app ArrGoda1985.any_is_nan].
    + apply several_is_nan, K.
    + inversion F as [|? y ? xs' O F']; subst. inversion N as [|? ? Ny N']; subst. rewrite (one_is_nan _ _ O), bind_ret_l, Ny. eapply IH; eauto.
Qed.

(** ** Pressures and forces *)

Ltac given_tac C :=
  eapply given_by; [exact C|intros ?s ?F; args_tac; repeat (constructor; [known|]); constructor|].

Theorem C71_pressures : forall disper (HD beta Rc g : num) (Hsi Tmax h_s d B1 cota steepness rho hacc Bup : nums) sh,
  let call := ArrGoda1985.calculate_pressures_and_forces disper (float HD) Hsi Tmax (float beta) h_s d B1 cota rho hacc (float Rc) Bup steepness g in
  let scalar i := Goda1985.calculate_pressures_and_forces_tuple disper HD (place i Hsi) (place i Tmax) beta (place i h_s) (place i d) (place i B1)
    (place i cota) (place i rho) (place i hacc) Rc (place i Bup) (place i steepness) g in
  isnan beta = false -> paired Tmax h_s ->
  one_number B1 NaN \/ (shape h_s = None /\ Forall (fun a => exists x, one_number a x) [Hsi; d; B1; cota; steepness]) ->
  common [Hsi; h_s; d; cota; rho; hacc; Bup] sh ->
  exists FH FU MH MU p1 p2 p3 p4 hstar_c pu h_5Hs etastar L alpha_1 alpha_2 alpha_3 impulsive,
    value call = Ok (FH, FU, MH, MU, p1, p2, p3, p4, hstar_c, pu, h_5Hs, etastar, L, alpha_1, alpha_2, alpha_3, impulsive)
    /\ (shape hstar_c = None /\ shape etastar = None /\ shape L = shape h_s /\ shape alpha_1 = shape h_s
       /\ common [h_s; Hsi; cota] (shape h_5Hs) /\ common [h_s; Hsi; cota; d] (shape alpha_2) /\ common [h_s; hacc] (shape alpha_3))
    /\ (common [h_s; Hsi; cota; d; rho] (shape p1) /\ shape p2 = shape p1 /\ common [h_s; Hsi; cota; d; rho; hacc] (shape p3)
       /\ (shape p4 = shape p1 \/ p4 = lit 0) /\ common [h_s; hacc; rho] (shape pu)
       /\ shape FH = shape p3 /\ shape MH = shape p3 /\ common [h_s; hacc; rho; Bup] (shape FU) /\ shape MU = shape FU)
    /\ forall i, inside sh i ->
       scalar i = (warns call, Ok (place i FH, place i FU, place i MH, place i MU, place i p1, place i p2, place i p3, place i p4, place i hstar_c, place i pu,
         place i h_5Hs, place i etastar, place i L, place i alpha_1, place i alpha_2, place i alpha_3, impulsive)).
Proof.
  intros disper HD beta Rc g Hsi Tmax h_s d B1 cota steepness rho hacc Bup sh call scalar NB P IB CS.
  pose proof (proj1 CS) as F. args_tac.
  set (bu := if (nabs beta >=? #15)%num then (nabs beta - #15)%num else #0%num).
  assert (LT : (nabs beta >=? #15)%num = false -> (nabs beta <? #15)%num = true).
  { destruct beta as [b| | |]; try discriminate. unfold nge, nle, nabs, nlt, neqb. intros K. apply orb_false_iff in K as (K1 & K2).
    destruct (Rltb_spec 15 (Rabs b)); [discriminate|]. destruct (Reqb_spec 15 (Rabs b)); [discriminate|]. apply Rltb_true. lra. }
  set (c := ncos (Numpy.deg2rad bu)). set (eta := (#0.75 * (#1 + c) * HD)%num).
  destruct (wavelength_paired disper Tmax h_s g P) as (L & EL & SL & VL).
  assert (SLS : stretches (shape L) sh) by (rewrite SL; assumption).
  assert (X1 : expression [h_s; Hsi; cota] (h_s + (Hsi * lit 5) / cota)%arr (fun i => (place i h_s + (place i Hsi * #5) / place i cota)%num)) by expression_tac.
  settle_tac X1 sh h5 E1 C1 S1 V1.
  assert (X2 : expression [h_s; L] (lit 0.6 + lit 0.5 * apow ((lit 4 * api * h_s / L) / asinh (lit 4 * api * h_s / L)) (lit 2))%arr
     (fun i => (#0.6 + #0.5 * npow ((#4 * npi * place i h_s / place i L) / nsinh (#4 * npi * place i h_s / place i L)) #2)%num)) by expression_tac.
  settle_tac X2 sh a1 E2 C2 S2 V2.
  assert (X3 : expression [h5; d] (((h5 - d) / (lit 3 * h5)) * apow (float HD / d) (lit 2))%arr
     (fun i => (((place i h5 - place i d) / (#3 * place i h5)) * npow (HD / place i d) #2)%num)) by expression_tac.
  settle_tac X3 sh a21 E3 C3 S3 V3.
  assert (X4 : expression [d] ((lit 2 * d) / float HD)%arr (fun i => ((#2 * place i d) / HD)%num)) by expression_tac.
  settle_tac X4 sh a22 E4 C4 S4 V4.
  assert (X5 : expression [a21; a22] (amin a21 a22) (fun i => nmin (place i a21) (place i a22))) by expression_tac.
  settle_tac X5 sh a2 E5 C5 S5 V5.
  assert (X6 : expression [hacc; h_s; L] (lit 1 - (hacc / h_s) * (lit 1 - (lit 1 / acosh (lit 2 * api * h_s / L))))%arr
     (fun i => (#1 - (place i hacc / place i h_s) * (#1 - (#1 / ncosh (#2 * npi * place i h_s / place i L))))%num)) by expression_tac.
  settle_tac X6 sh a3 E6 C6 S6 V6.
  assert (X7 : expression [a1; a2; rho] (lit 0.5 * (lit 1 + float c) * (a1 + a2 * apow (float c) (lit 2)) * rho * float g * float HD)%arr
     (fun i => (#0.5 * (#1 + c) * (place i a1 + place i a2 * npow c #2) * place i rho * g * HD)%num)) by expression_tac.
  settle_tac X7 sh p1 E7 C7 S7 V7.
  assert (X8 : expression [p1; h_s; L] (p1 / acosh (lit 2 * api * h_s / L))%arr (fun i => (place i p1 / ncosh (#2 * npi * place i h_s / place i L))%num)) by expression_tac.
  settle_tac X8 sh p2 E8 C8 S8 V8.
  assert (X9 : expression [a3; p1] (a3 * p1)%arr (fun i => (place i a3 * place i p1)%num)) by expression_tac.
  settle_tac X9 sh p3 E9 C9 S9 V9.
  assert (X10 : exists p4 : nums, (if (eta >? Rc)%num then p1 * (lit 1 - (float Rc / float eta)) else lit 0)%arr = ret p4
     /\ ((shape p4 = shape p1) \/ p4 = lit 0) /\ stretches (shape p4) (shape p1) /\ stretches (shape p4) sh
     /\ forall i, inside sh i -> place i p4 = if (eta >? Rc)%num then (place i p1 * (#1 - (Rc / eta)))%num else #0%num).
  { destruct (eta >? Rc)%num.
    - assert (X : expression [p1] (p1 * (lit 1 - (float Rc / float eta)))%arr (fun i => (place i p1 * (#1 - (Rc / eta)))%num)) by expression_tac.
      settle_tac X sh p4 E C S V. exists p4. split; [exact E|].
      assert (Q : stretches (shape p4) (shape p1)) by (apply (common_stretches _ _ _ C); constructor; [apply stretches_refl|constructor]).
      split; [left; apply stretches_antisym; [exact Q|apply C_first in C; exact C]|]. split; [exact Q|]. split; [exact S|exact V].
    - exists (lit 0). split; [reflexivity|]. split; [right; reflexivity|]. split; [left; reflexivity|]. split; [left; reflexivity|reflexivity]. }
  destruct X10 as (p4 & E10 & W10 & C10 & S10 & V10).
  set (hc := nmin eta Rc).
  assert (X11 : expression [a1; a3; rho] (lit 0.5 * (lit 1 + float c) * a1 * a3 * rho * float g * float HD)%arr
     (fun i => (#0.5 * (#1 + c) * place i a1 * place i a3 * place i rho * g * HD)%num)) by expression_tac.
  settle_tac X11 sh pu E11 C11 S11 V11.
  assert (X12 : expression [p1; p3; hacc; p4] (lit 0.5 * (p1 + p3) * hacc + lit 0.5 * (p1 + p4) * float hc)%arr
     (fun i => (#0.5 * (place i p1 + place i p3) * place i hacc + #0.5 * (place i p1 + place i p4) * hc)%num)) by expression_tac.
  settle_tac X12 sh FH E12 C12 S12 V12.
  assert (X13 : expression [p1; p3; hacc; p4] ((lit 1 / lit 6) * (lit 2 * p1 + p3) * apow hacc (lit 2)
        + lit 0.5 * (p1 + p4) * hacc * float hc
        + (lit 1 / lit 6) * (p1 + lit 2 * p4) * apow (float hc) (lit 2))%arr
     (fun i => ((#1 / #6) * (#2 * place i p1 + place i p3) * npow (place i hacc) #2
        + #0.5 * (place i p1 + place i p4) * place i hacc * hc
        + (#1 / #6) * (place i p1 + #2 * place i p4) * npow hc #2)%num)) by expression_tac.
  settle_tac X13 sh MH E13 C13 S13 V13.
  assert (X14 : expression [pu; Bup] (lit 0.5 * pu * Bup)%arr (fun i => (#0.5 * place i pu * place i Bup)%num)) by expression_tac.
  settle_tac X14 sh FU E14 C14 S14 V14.
  assert (X15 : expression [FU; Bup] ((lit 2 / lit 3) * FU * Bup)%arr (fun i => ((#2 / #3) * place i FU * place i Bup)%num)) by expression_tac.
  settle_tac X15 sh MU E15 C15 S15 V15.
  assert (VL' : forall i, inside sh i -> place i L = CorePhysics.local_wavelength disper (place i Tmax) (place i h_s) g).
  { intros i I. apply VL. clear - P I SL SLS. rewrite SL in SLS. destruct SLS as [Q|[(Q & _)|Q]]; [rewrite Q; exact Logic.I| |rewrite Q; exact I].
    destruct P as [(_ & P)|(n & N & P & _)]; rewrite Q in P; [discriminate P|]. injection P as <-. exfalso. exact (Nat.lt_irrefl _ N). }
  assert (XI : exists w b, ArrGoda1985.check_impulsive_breaking (float (nabs beta)) B1 L cota steepness (float Rc) Hsi d h_s = (w, Ok b)
     /\ forall i, inside sh i -> Goda1985.check_impulsive_breaking (nabs beta) (place i B1) (place i L) (place i cota) (place i steepness) Rc (place i Hsi) (place i d) (place i h_s) = (w, Ok b)).
  { destruct IB as [O|(SH & O)].
    - exists [], false. split; [apply (impulsive_unknown _ _ _ _ _ _ _ _ _ (nabs beta)); [reflexivity|exact O]|].
      intros i I. rewrite (one_place _ _ i O). apply impulsive_unknown_scalar.
    - args_tac. repeat match goal with H : exists x, one_number _ x |- _ => destruct H as (? & ?) end.
      destruct h_s as [h|]; [|discriminate SH]. destruct L as [l|]; [|discriminate SL].
      match goal with A1 : one_number Hsi ?y1, A2 : one_number d ?y2, A3 : one_number B1 ?y3, A4 : one_number cota ?y4, A5 : one_number steepness ?y5 |- _ =>
        rewrite (impulsive_ones _ _ _ _ _ _ _ _ _ (nabs beta) y3 l y4 y5 Rc y1 y2 h) by (assumption || reflexivity);
        destruct (impulsive_ok (nabs beta) y3 l y4 y5 Rc y1 y2 h) as (w & b & E); exists w, b; split; [exact E|]; intros i I;
        rewrite (one_place _ _ i A1), (one_place _ _ i A2), (one_place _ _ i A3), (one_place _ _ i A4), (one_place _ _ i A5); exact E
      end. }
  destruct XI as (w & b & EI & VI).
  assert (EQ : call = (w, Ok (FH, FU, MH, MU, p1, p2, p3, p4, float hc, pu, h5, float eta, L, a1, a2, a3, b))).
  { unfold call, ArrGoda1985.calculate_pressures_and_forces.
    apply (skip _ _ (float (nabs beta)) _ eq_refl), (skip _ _ (nabs beta >=? #15)%num _ eq_refl).
    apply (skip _ _ (float bu)).
    { unfold bu. destruct (nabs beta >=? #15)%num eqn:G; [reflexivity|]. apply (skip _ _ (nabs beta <? #15)%num _ eq_refl). rewrite (LT eq_refl). reflexivity. }
    apply (skip _ _ (float c) _ eq_refl), (skip _ _ h5 _ E1), (skip _ _ (float eta) _ eq_refl).
    apply (skip _ _ L); [apply quiet_is; [|exact EL]|].
    { unfold ArrGoda1985.calculate_local_wavelength. apply quiet_bind; [|intros; apply quiet_ret]. apply wavelength_quiet. }
    apply (skip _ _ a1 _ E2), (skip _ _ a21 _ E3), (skip _ _ a22 _ E4), (skip _ _ a2 _ E5), (skip _ _ a3 _ E6), (skip _ _ p1 _ E7), (skip _ _ p2 _ E8), (skip _ _ p3 _ E9).
    apply (skip _ _ (eta >? Rc)%num _ eq_refl), (skip _ _ p4 _ E10), (skip _ _ (float hc) _ eq_refl), (skip _ _ pu _ E11), (skip _ _ FH _ E12), (skip _ _ MH _ E13), (skip _ _ FU _ E14), (skip _ _ MU _ E15).
    rewrite EI. unfold bind, ret. cbn. rewrite app_nil_r. reflexivity. }
  exists FH, FU, MH, MU, p1, p2, p3, p4, (float hc), pu, h5, (float eta), L, a1, a2, a3, b.
  split; [rewrite EQ; reflexivity|].
  assert (G1 : common [h_s; Hsi; cota] (shape h5)) by exact C1.
  assert (G2 : shape a1 = shape h_s).
  { assert (G : common [h_s] (shape a1)) by (eapply given_by; [exact C2|rewrite ?SL; intros s F; args_tac; repeat (constructor; [rewrite ?SL; assumption|]); constructor|constructor; [exact (C_first _ _ _ C2)|constructor]]).
    symmetry. apply stretches_antisym; [exact (C_first _ _ _ G)|]. apply (common_stretches _ _ _ G). constructor; [apply stretches_refl|constructor]. }
  pose proof (proj1 C1) as F1. pose proof (proj1 C3) as F3. pose proof (proj1 C4) as F4. pose proof (proj1 C5) as F5. pose proof (proj1 C6) as F6.
  pose proof (proj1 C7) as F7. pose proof (proj1 C8) as F8. pose proof (proj1 C9) as F9. pose proof (proj1 C11) as F11. pose proof (proj1 C12) as F12.
  pose proof (proj1 C13) as F13. pose proof (proj1 C14) as F14. pose proof (proj1 C15) as F15. args_tac.
  assert (G3 : common [h_s; Hsi; cota; d] (shape a2)) by (given_tac C5; repeat (constructor; [eauto using stretches_trans|]); constructor).
  assert (G4 : common [h_s; hacc] (shape a3)).
  { eapply given_by; [exact C6|intros s F; args_tac; repeat (constructor; [rewrite ?SL; assumption|]); constructor|repeat (constructor; [assumption|]); constructor]. }
  assert (SL1 : forall s, stretches (shape h_s) s -> stretches (shape a1) s) by (rewrite G2; auto).
  assert (A1 : stretches (shape h_s) (shape p1)) by (rewrite <- G2; assumption).
  assert (G5 : common [h_s; Hsi; cota; d; rho] (shape p1)).
  { eapply given_by; [exact C7|intros s F; args_tac; repeat (constructor; [first [apply SL1; assumption|known]|]); constructor|].
    repeat (constructor; [eauto 6 using stretches_trans|]); constructor. }
  assert (G6 : shape p2 = shape p1).
  { apply stretches_antisym; [|assumption]. apply (common_stretches _ _ _ C8). repeat (constructor; [first [apply stretches_refl|rewrite ?SL; assumption]|]). constructor. }
  assert (G7 : common [h_s; Hsi; cota; d; rho; hacc] (shape p3)).
  { given_tac C9. repeat (constructor; [eauto 6 using stretches_trans|]); constructor. }
  assert (A2 : stretches (shape h_s) (shape pu)) by (rewrite <- G2; assumption).
  assert (G8 : common [h_s; hacc; rho] (shape pu)).
  { eapply given_by; [exact C11|intros s F; args_tac; repeat (constructor; [first [apply SL1; assumption|known]|]); constructor|].
    repeat (constructor; [eauto 6 using stretches_trans|]); constructor. }
  assert (A3 : stretches (shape hacc) (shape p3)) by eauto using stretches_trans.
  assert (A4 : stretches (shape p4) (shape p3)) by eauto using stretches_trans.
  assert (G9 : shape FH = shape p3).
  { apply stretches_antisym; [|assumption]. apply (common_stretches _ _ _ C12). repeat (constructor; [first [apply stretches_refl|assumption]|]). constructor. }
  assert (G10 : shape MH = shape p3).
  { apply stretches_antisym; [|assumption]. apply (common_stretches _ _ _ C13). repeat (constructor; [first [apply stretches_refl|assumption]|]). constructor. }
  assert (G11 : common [h_s; hacc; rho; Bup] (shape FU)).
  { given_tac C14. repeat (constructor; [eauto 6 using stretches_trans|]); constructor. }
  assert (G12 : shape MU = shape FU).
  { apply stretches_antisym; [|assumption]. apply (common_stretches _ _ _ C15). repeat (constructor; [first [apply stretches_refl|assumption]|]). constructor. }
  split; [repeat (split; [first [reflexivity|assumption]|]); assumption|].
  split; [repeat (split; [assumption|]); assumption|].
  intros i I. specialize (VI i I). specialize (VL' i I). rewrite EQ. unfold scalar, Goda1985.calculate_pressures_and_forces_tuple, Goda1985.calculate_pressures_and_forces.
  cbv zeta.
  replace (if (nabs beta >=? #15)%num then ret (nabs beta - #15)%num else if (nabs beta <? #15)%num then ret #0%num else raise UnboundLocalError) with (ret bu).
  2:{ unfold bu. destruct (nabs beta >=? #15)%num eqn:G; [reflexivity|]. rewrite (LT eq_refl). reflexivity. }
  rewrite bind_ret_l. fold c. fold eta. fold hc. rewrite <- VL'. rewrite VI.
  unfold bind, ret. cbn [fst snd warns value]. rewrite !app_nil_r.
  rewrite (V15 i I), (V14 i I), (V13 i I), (V12 i I), (V11 i I), (V10 i I), (V9 i I), (V8 i I), (V7 i I), (V6 i I), (V5 i I), (V4 i I), (V3 i I), (V2 i I), (V1 i I).
  reflexivity.
Qed.

(** What a call that returns says about its arguments *)
Lemma angle_ok (beta : nums) (k : nums -> nums -> M ArrGoda1985.pressures) r :
  value (beta <- aabs beta ;;
    wide <- holds (beta >=? lit 15)%arr ;;
    beta_use <- (if wide : bool then beta - lit 15 else narrow <- holds (beta <? lit 15) ;; if narrow : bool then value_of (lit 0) else raise UnboundLocalError)%arr ;;
    k beta beta_use) = Ok r ->
  (exists x, one_number beta x /\ isnan x = false) /\ exists b b' : nums, (exists y, one_number b y /\ isnan y = false) /\ stretches (shape b') (Some 1) /\ value (k b b') = Ok r.
Proof.
  intros E. apply step in E as (b & Eb & E). apply step in E as (w & Ew & E). apply step in E as (bu & Eu & E).
  assert (SB : shape b = shape beta) by (unfold aabs, op1, lift1 in Eb; rewrite value_bind in Eb; injection Eb as <-; apply shape_amap).
  assert (S1 : stretches (shape b) (Some 1)).
  { pose proof (holds_uses _ _ [shape b] Ew) as U. assert (F : Forall (fun s => stretches s (Some 1)) [shape b]) by (apply U; eapply uses_incl; [uses_tac|incl_tac]). inversion F; assumption. }
  assert (O : exists x, one_number beta x) by (apply one_shape; rewrite <- SB; exact S1). destruct O as (x & O).
  assert (Eb' : b = match beta with Sc _ => Sc (nabs x) | Ar _ => Ar [nabs x] end).
  { destruct beta as [z|[|z [|z' l]]]; try discriminate O; injection O as ->; injection Eb as <-; reflexivity. }
  assert (NX : isnan x = false) by (destruct x; try reflexivity; exfalso; destruct beta; rewrite Eb' in *; injection Ew as <-; discriminate Eu).
  split.
  - exists x. split; [exact O|exact NX].
  - exists b, bu. split; [exists (nabs x); rewrite Eb'; split; [destruct beta; reflexivity|destruct x; try reflexivity; exact NX]|]. split; [|exact E]. destruct w.
    + assert (F : den (Some 1) (value_of b - value_of (lit 15))%arr (fun i => (place i b - #15)%num)) by den_tac.
      destruct F as (q & Eq & Sq & _). change (arr num) with nums in *. rewrite Eq in Eu. injection Eu as <-. exact Sq.
    + apply step in Eu as (n & _ & Eu). destruct n; [|discriminate Eu]. injection Eu as <-. left; reflexivity.
Qed.

Lemma pressures_need disper HD Hsi Tmax beta h_s d B1 cota rho hacc Rc Bup steepness g r :
  value (ArrGoda1985.calculate_pressures_and_forces disper HD Hsi Tmax beta h_s d B1 cota rho hacc Rc Bup steepness g) = Ok r ->
  exists FH FU MH MU p1 p2 p3 p4 hstar_c pu h_5Hs etastar L alpha_1 alpha_2 alpha_3 impulsive,
    r = (FH, FU, MH, MU, p1, p2, p3, p4, hstar_c, pu, h_5Hs, etastar, L, alpha_1, alpha_2, alpha_3, impulsive)
    /\ (value (ArrGoda1985.calculate_local_wavelength disper Tmax h_s g) = Ok L /\ forall x, one_number B1 x -> isnan x = false -> exists l, one_number L l)
    /\ Forall (fun a => exists x, one_number a x) [beta; HD; Rc; B1]
    /\ Forall (fun a => stretches (shape a) (shape MH)) [h_s; Hsi; cota; d; rho; hacc]
    /\ Forall (fun a => stretches (shape a) (shape FU)) [h_s; hacc; rho; Bup].
Proof.
  intros E. unfold ArrGoda1985.calculate_pressures_and_forces in E. apply angle_ok in E as ((b0 & Ob & Nb) & beta' & bu & (y & Oy & Ny) & Sbu & E).
  take E c H1. take E h5 H2. take E eta H3. take E L HL. take E a1 H4. take E a21 H5. take E a22 H6. take E a2 H7. take E a3 H8. take E p1 H9. take E p2 H10. take E p3 H11.
  take E o HO. take E p4 H12. take E hc H13. take E pu H14. take E FH H15. take E MH H16. take E FU H17. take E MU H18. take E imp HI. injection E as <-.
  used H2 [shape h_s; shape Hsi; shape cota]. used H3 [shape HD]. used H4 [shape h_s].
  used H5 [shape h_s; shape Hsi; shape cota; shape d]. used H7 [shape h_s; shape Hsi; shape cota; shape d]. used H8 [shape h_s; shape hacc].
  used H9 [shape h_s; shape Hsi; shape cota; shape d; shape rho]. used H11 [shape h_s; shape Hsi; shape cota; shape d; shape rho; shape hacc].
  used H14 [shape h_s; shape hacc; shape rho]. used H16 [shape h_s; shape Hsi; shape cota; shape d; shape rho; shape hacc]. used H17 [shape h_s; shape hacc; shape rho; shape Bup].
  apply (holds_uses _ _ [shape HD; shape Rc]) in HO; [|eapply uses_incl; [uses_tac|incl_tac]].
  assert (OB : (exists x, one_number B1 x) /\ forall x, one_number B1 x -> isnan x = false -> exists l, one_number L l).
  { unfold ArrGoda1985.check_impulsive_breaking in HI. cbn [ArrGoda1985.any_is_nan] in HI. rewrite (one_is_nan _ _ Oy), bind_ret_l, Ny in HI. apply step in HI as (m & Hm & _).
    split.
    - apply step in Hm as (m' & Hm & _). apply one_shape. apply (holds_uses _ _ [shape B1]) in Hm; [inversion Hm; assumption|]. eapply uses_incl; [uses_tac|incl_tac].
    - intros x Ox Nx. rewrite (one_is_nan _ _ Ox), bind_ret_l, Nx in Hm. apply step in Hm as (m' & Hm & _).
      apply one_shape. apply (holds_uses _ _ [shape L]) in Hm; [inversion Hm; assumption|]. eapply uses_incl; [uses_tac|incl_tac]. }
  destruct OB as (OB & OL).
  exists FH, FU, MH, MU, p1, p2, p3, p4, hc, pu, h5, eta, L, a1, a2, a3, imp. split; [reflexivity|]. split; [split; [exact HL|exact OL]|]. split; [|split].
  - inversion HO as [|? ? K1 HO']; subst. inversion HO' as [|? ? K2 _]; subst. constructor; [exists b0; exact Ob|]. constructor; [apply one_shape; exact K1|].
    constructor; [apply one_shape; exact K2|]. constructor; [exact OB|constructor].
  - match goal with U : Forall (fun s => stretches s (shape MH)) _ |- _ => clear - U; args_tac end. repeat (constructor; [assumption|]). constructor.
  - match goal with U : Forall (fun s => stretches s (shape FU)) _ |- _ => clear - U; args_tac end. repeat (constructor; [assumption|]). constructor.
Qed.

Lemma angle_run beta x : one_number beta x -> isnan x = false ->
  exists b b' : nums, one_number b (nabs x) /\ stretches (shape b') (Some 1)
  /\ forall k : nums -> nums -> M ArrGoda1985.pressures, (beta <- aabs beta ;;
    wide <- holds (beta >=? lit 15)%arr ;;
    beta_use <- (if wide : bool then beta - lit 15 else narrow <- holds (beta <? lit 15) ;; if narrow : bool then value_of (lit 0) else raise UnboundLocalError)%arr ;;
    k beta beta_use) = k b b'.
Proof.
  intros O N.
  assert (LT : (nabs x >=? #15)%num = false -> (nabs x <? #15)%num = true).
  { destruct x as [b| | |]; try discriminate. unfold nge, nle, nabs, nlt, neqb. intros K. apply orb_false_iff in K as (K1 & K2).
    destruct (Rltb_spec 15 (Rabs b)); [discriminate|]. destruct (Reqb_spec 15 (Rabs b)); [discriminate|]. apply Rltb_true. lra. }
  assert (H : forall box : num -> nums, (beta = box x /\ ((forall z, box z = Sc z) \/ (forall z, box z = Ar [z]))) ->
    exists b b' : nums, one_number b (nabs x) /\ stretches (shape b') (Some 1)
    /\ aabs beta = ret b /\ holds (value_of b >=? lit 15)%arr = ret (nabs x >=? #15)%num
    /\ (if (nabs x >=? #15)%num then value_of b - lit 15 else narrow <- holds (value_of b <? lit 15) ;; if narrow : bool then value_of (lit 0) else raise UnboundLocalError)%arr = ret b').
  { intros box (-> & B). exists (box (nabs x)), (if (nabs x >=? #15)%num then box (nabs x - #15)%num else lit 0).
    destruct (nabs x >=? #15)%num eqn:G.
    - destruct B as [B|B]; rewrite !B; (split; [reflexivity|]); (split; [first [left; reflexivity|right; right; reflexivity]|]); (split; [reflexivity|]);
        (split; [cbn; rewrite <- G; reflexivity|]); reflexivity.
    - specialize (LT eq_refl). destruct B as [B|B]; rewrite !B; (split; [reflexivity|]); (split; [left; reflexivity|]); (split; [reflexivity|]);
        (split; [cbn; rewrite <- G; reflexivity|]); cbn; rewrite LT; reflexivity. }
  assert (B : exists box : num -> nums, beta = box x /\ ((forall z, box z = Sc z) \/ (forall z, box z = Ar [z]))).
  { destruct beta as [z|[|z [|z' l]]]; try discriminate O; injection O as ->; [exists Sc; auto|exists (fun z => Ar [z]); auto]. }
  destruct B as (box & B). destruct (H box B) as (b & b' & O' & S' & E1 & E2 & E3). exists b, b'. split; [exact O'|]. split; [exact S'|].
  intros k. apply (skip _ _ b _ E1), (skip _ _ _ _ E2), (skip _ _ b' _ E3). reflexivity.
Qed.

Lemma tame_any l : tame (ArrGoda1985.any_is_nan l).
Proof. induction l as [|a l IH]; cbn [ArrGoda1985.any_is_nan]; [apply tame_ret|]. apply tame_bind; [apply tame_is_nan, tame_value|]. intros [] _; [apply tame_ret|exact IH]. Qed.
Lemma tame_all l : Forall tame l -> tame (ArrGoda1985.all_hold l).
Proof. induction 1 as [|c l H F IH]; cbn [ArrGoda1985.all_hold]; [apply tame_ret|]. apply tame_bind; [apply tame_holds, H|]. intros [] _; [exact IH|apply tame_ret]. Qed.
Lemma tame_impulsive beta B1 L cota s Rc Hsi d h_s : tame (ArrGoda1985.check_impulsive_breaking beta B1 L cota s Rc Hsi d h_s).
Proof.
  unfold ArrGoda1985.check_impulsive_breaking. apply tame_bind; [apply tame_any|]. intros m _.
  apply tame_bind; [destruct m; [apply tame_ret|apply tame_all; repeat (constructor; [tame_tac|]); constructor]|]. intros [] _.
  - apply tame_bind; [|intros [] _; apply tame_ret]. intros e E. unfold Goda1985.check_true in E. rewrite value_check in E. discriminate E.
  - apply tame_bind; [apply tame_any|]. intros m' _.
    apply tame_bind; [destruct m'; [apply tame_ret|apply tame_all; repeat (constructor; [tame_tac|]); constructor]|]. intros [] _; [|apply tame_ret].
    apply tame_bind; [|intros [] _; apply tame_ret]. intros e E. unfold Goda1985.check_true in E. rewrite value_check in E. discriminate E.
Qed.

Lemma pressures_tame disper HD Hsi Tmax beta h_s d B1 cota rho hacc Rc Bup steepness g x : one_number beta x -> isnan x = false ->
  (exists L, value (ArrGoda1985.calculate_local_wavelength disper Tmax h_s g) = Ok L) ->
  tame (ArrGoda1985.calculate_pressures_and_forces disper HD Hsi Tmax beta h_s d B1 cota rho hacc Rc Bup steepness g).
Proof.
  intros O NX (L & EL). destruct (angle_run _ _ O NX) as (b & b' & Ob & Sb' & R). unfold ArrGoda1985.calculate_pressures_and_forces.
  rewrite R. repeat match goal with |- tame (bind (ArrGoda1985.calculate_local_wavelength _ _ _ _) _) => fail 1 | |- tame (bind (A := nums) _ _) => apply tame_bind; [autounfold with arrays; tame_tac|intros ? _] end.
  apply tame_bind; [intros e E; rewrite EL in E; discriminate E|]. intros L' _.
  repeat match goal with |- tame (bind (ArrGoda1985.check_impulsive_breaking _ _ _ _ _ _ _ _ _) _) => fail 1 | |- tame (bind _ _) => apply tame_bind; [unfold float; autounfold with arrays; tame_tac|intros ? _] end.
  apply tame_bind; [apply tame_impulsive|]. intros; apply tame_ret.
Qed.

Theorem C71_pressures_stop : forall disper HD Hsi Tmax beta h_s d B1 cota rho hacc Rc Bup steepness g,
  let call := ArrGoda1985.calculate_pressures_and_forces disper HD Hsi Tmax beta h_s d B1 cota rho hacc Rc Bup steepness g in
  ((forall x, ~ one_number beta x) -> value call = Err ValueError)
  /\ (one_number beta NaN -> value call = Err UnboundLocalError)
  /\ (forall x, one_number beta x -> isnan x = false -> ~ compatible [h_s; Hsi; cota] -> value call = Err ValueError)
  /\ (forall x, one_number beta x -> isnan x = false -> compatible [h_s; Hsi; cota] ->
       (shape h_s <> None -> ~ paired Tmax h_s -> value call = Err UnboundLocalError)
       /\ (shape h_s = None -> Tmax = Ar [] -> value call = Err IndexError)
       /\ (paired Tmax h_s \/ (shape h_s = None /\ Tmax <> Ar []) ->
           Exists (fun a => forall x, ~ one_number a x) [HD; Rc; B1] \/ ~ compatible [h_s; Hsi; cota; d; rho; hacc] \/ ~ compatible [h_s; hacc; rho; Bup]
             \/ (shape h_s <> None /\ forall x, one_number B1 x -> isnan x = false) ->
           value call = Err ValueError)).
Proof.
  intros disper HD Hsi Tmax beta h_s d B1 cota rho hacc Rc Bup steepness g call. split; [|split; [|split]].
  - intros N. destruct beta as [x|[|x [|y l]]]; try reflexivity; exfalso; apply (N x); reflexivity.
  - intros O. destruct beta as [x|[|x [|y l]]]; try discriminate O; injection O as ->; reflexivity.
  - intros x O NX N. destruct (angle_run _ _ O NX) as (b & b' & _ & _ & R). unfold call, ArrGoda1985.calculate_pressures_and_forces. rewrite R.
    destruct (settle [b'] (acos (adeg2rad b')) (fun i => ncos (Numpy.deg2rad (place i b'))) (shape b')) as (c & Ec & _); [expression_tac|constructor; [apply stretches_refl|constructor]|].
    apply (steps _ _ c _ Ec). rewrite value_bind.
    rewrite (expression_raises [h_s; Hsi; cota] (h_s + (Hsi * lit 5) / cota)%arr (fun i => (place i h_s + (place i Hsi * #5) / place i cota)%num)); [reflexivity|expression_tac|exact N].
  - intros x O NX (t & K). destruct (angle_run _ _ O NX) as (b & b' & Ob & Sb' & R).
    destruct (settle [b'] (acos (adeg2rad b')) (fun i => ncos (Numpy.deg2rad (place i b'))) (Some 1)) as (c & Ec & _ & Sc' & _); [expression_tac|constructor; [exact Sb'|constructor]|].
    destruct (settle [h_s; Hsi; cota] (h_s + (Hsi * lit 5) / cota)%arr (fun i => (place i h_s + (place i Hsi * #5) / place i cota)%num) t) as (h5 & E5 & _); [expression_tac|exact K|].
    assert (EE : exists eta, value (lit 0.75 * (lit 1 + c) * HD)%arr = Ok eta).
    { assert (Q : exists u, stretches (shape c) u /\ stretches (shape HD) u).
      { destruct (shape HD) as [n|]; [exists (Some n)|exists (Some 1); split; [exact Sc'|left; reflexivity]]. split; [|right; right; reflexivity].
        destruct Sc' as [Q|[(Q & _)|Q]]; [left; exact Q|right; left; split; [exact Q|discriminate]|right; left; split; [exact Q|discriminate]]. }
      destruct Q as (u & Q1 & Q2).
      destruct (settle [c; HD] (lit 0.75 * (lit 1 + c) * HD)%arr (fun i => (#0.75 * (#1 + place i c) * place i HD)%num) u) as (eta & E & _); [expression_tac| |exists eta; exact E].
      constructor; [exact Q1|constructor; [exact Q2|constructor]]. }
    destruct EE as (eta & EE). unfold call, ArrGoda1985.calculate_pressures_and_forces. split; [|split].
    + intros SH NP. rewrite R. apply (steps _ _ c _ Ec), (steps _ _ h5 _ E5), (steps _ _ eta _ EE). rewrite value_bind.
      destruct (C71_wavelength disper Tmax h_s g) as (_ & _ & _ & W). rewrite (W SH NP). reflexivity.
    + intros SH NP. rewrite R. apply (steps _ _ c _ Ec), (steps _ _ h5 _ E5), (steps _ _ eta _ EE). rewrite value_bind.
      destruct (C71_wavelength disper Tmax h_s g) as (_ & _ & W & _). rewrite (W NP SH). reflexivity.
    + intros P N. apply tame_raises.
      * assert (EL : exists L, value (ArrGoda1985.calculate_local_wavelength disper Tmax h_s g) = Ok L).
        { destruct P as [P|(SH & P)]; [destruct (wavelength_paired disper Tmax h_s g P) as (L & E & _); exists L; exact E|].
          destruct h_s as [h|]; [|discriminate SH]. destruct Tmax as [t'|[|t' l]]; [eexists; reflexivity|exfalso; apply P; reflexivity|eexists; reflexivity]. }
        exact (pressures_tame _ _ _ _ _ _ _ _ _ _ _ _ _ _ _ _ O NX EL).
      * intros r E. apply pressures_need in E as (FH & FU & MH & MU & p1 & p2 & p3 & p4 & hc & pu & h5' & eta' & L & a1 & a2 & a3 & imp & _ & (HL & OL) & F1 & F2 & F3).
        destruct N as [N|[N|[N|(SH & N)]]]; [|apply N; exists (shape MH); exact F2|apply N; exists (shape FU); exact F3|].
        inversion F1 as [|? ? _ F4]; subst. rewrite Forall_forall in F4. apply Exists_exists in N as (a & I & N). destruct (F4 a I) as (y & Oy). exact (N y Oy).
        inversion F1 as [|? ? _ F4]; subst. inversion F4 as [|? ? _ F5]; subst. inversion F5 as [|? ? _ F6]; subst. inversion F6 as [|? ? (y & Oy) _]; subst.
        destruct (OL y Oy (N y Oy)) as (l & Ol). assert (SL1 : stretches (shape L) (Some 1)) by (apply one_shape; exists l; exact Ol).
        destruct P as [P|(P & _)]; [|exact (SH P)]. destruct (wavelength_paired disper Tmax h_s g P) as (L' & EL' & SL' & _). pose proof (eq_trans (eq_sym EL') HL) as J. injection J as ->.
        rewrite SL' in SL1. destruct P as [(_ & P)|(n & Ln & P & _)]; [exact (SH P)|]. rewrite P in SL1. clear - SL1 Ln.
        destruct SL1 as [Q|[(Q & _)|Q]]; [discriminate Q| |]; injection Q as ->; exact (Nat.lt_irrefl _ Ln).
Qed.

(** Of several periods with one float as depth only the first one counts. *)
Theorem C71_first_period : forall disper HD Hsi t ts beta h d B1 cota rho hacc Rc Bup steepness g,
  ArrGoda1985.calculate_pressures_and_forces disper HD Hsi (Ar (t :: ts)) beta (float h) d B1 cota rho hacc Rc Bup steepness g
  = ArrGoda1985.calculate_pressures_and_forces disper HD Hsi (float t) beta (float h) d B1 cota rho hacc Rc Bup steepness g.
Proof. reflexivity. Qed.

(** ** Forces and reactions *)

Lemma check_floats beta cota T tup B h B1 :
  ArrGoda1985.check_validity_range (Sc beta) (Sc cota) (Sc T) (Sc tup) (Sc B) (Sc h) (Sc B1) = Goda1985.check_validity_range beta cota T tup B h B1.
Proof.
  unfold ArrGoda1985.check_validity_range, Goda1985.check_validity_range. rewrite !given_float.
  change (value_of (Sc tup) / value_of (Sc B))%arr with (value_of (Sc (tup / B)%num)). rewrite !acheck_float. reflexivity.
Qed.

(** The friction factor can be an array, it bears on the safety against sliding only. *)
Theorem C71_reactions : forall disper HD Hsi T beta h d B1 cota rho hacc Rc B above below steepness frac g muf,
  let call := ArrGoda1985.calculate_forces_and_reactions disper (float HD) (float Hsi) (float T) (float beta) (float h) (float d) (float B1) (float cota)
    (float rho) (float hacc) (float Rc) (float B) (float above) (float below) (float steepness) muf (float frac) g in
  let scalar i := Goda1985.calculate_forces_and_reactions_tuple disper HD Hsi T beta h d B1 cota rho hacc Rc B above below steepness (place i muf) frac g in
  isnan beta = false ->
  exists FH FU MH MU p1 pe pu impulsive sliding overturning,
    value call = Ok (float FH, float FU, float MH, float MU, float p1, float pe, float pu, impulsive, sliding, float overturning)
    /\ shape sliding = shape muf
    /\ forall i, inside (shape muf) i -> scalar i = (warns call, Ok (FH, FU, MH, MU, p1, pe, pu, impulsive, place i sliding, overturning)).
Proof.
  intros disper HD Hsi T beta h d B1 cota rho hacc Rc B above below steepness frac g muf call scalar NB.
  destruct (C71_pressures disper HD beta Rc g (Sc Hsi) (Sc T) (Sc h) (Sc d) (Sc B1) (Sc cota) (Sc steepness) (Sc rho) (Sc hacc) (Sc B) None NB)
    as (FH & FU & MH & MU & p1 & p2 & p3 & p4 & hc & pu & h5 & eta & L & a1 & a2 & a3 & imp & E & (S1 & S2 & S3 & S4 & S5 & S6 & S7) & (S8 & S9 & S10 & S11 & S12 & S13 & S14 & S15 & S16) & V).
  { left. split; reflexivity. }
  { right. split; [reflexivity|]. repeat (constructor; [eexists; reflexivity|]). constructor. }
  { split; [repeat (constructor; [left; reflexivity|]); constructor|left; reflexivity]. }
  assert (NONE : forall l (x : nums), Forall (fun a : nums => shape a = None) l -> common l (shape x) -> exists z, x = Sc z).
  { intros l x Q (_ & [K|K]); [destruct x; [eexists; reflexivity|discriminate K]|].
    apply Exists_exists in K as (a & I & K). rewrite Forall_forall in Q. rewrite (Q a I) in K. destruct x; [eexists; reflexivity|discriminate K]. }
  assert (SAME : forall x y : nums, shape x = shape y -> (exists z, y = Sc z) -> exists z, x = Sc z) by (intros x y K (z & ->); destruct x; [eexists; reflexivity|discriminate K]).
  assert (Z1 : exists z, p1 = Sc z) by (apply (NONE _ _ (Forall_forall _ _) S8) || (eapply NONE; [|exact S8]; repeat (constructor; [reflexivity|]); constructor)).
  assert (Z3 : exists z, p3 = Sc z) by (eapply NONE; [|exact S10]; repeat (constructor; [reflexivity|]); constructor).
  assert (Zu : exists z, pu = Sc z) by (eapply NONE; [|exact S12]; repeat (constructor; [reflexivity|]); constructor).
  assert (ZF : exists z, FU = Sc z) by (eapply NONE; [|exact S15]; repeat (constructor; [reflexivity|]); constructor).
  assert (ZH : exists z, FH = Sc z) by exact (SAME _ _ S13 Z3). assert (ZM : exists z, MH = Sc z) by exact (SAME _ _ S14 Z3). assert (ZU : exists z, MU = Sc z) by exact (SAME _ _ S16 ZF).
  destruct Z1 as (q1 & ->), Zu as (qu & ->), ZF as (fu & ->), ZH as (fh & ->), ZM as (mh & ->), ZU as (mu & ->).
  specialize (V 0 Logic.I). cbn [place at_] in V.
  match type of E with value ?c = Ok ?r => assert (EQ : c = (warns c, Ok r)) by (rewrite <- E; apply surjective_pairing) end.
  match type of V with _ = (?w, _) => set (w1 := w) in * end.
  set (tup := (frac * B)%num). set (W := Goda1985.calculate_Wup hacc Rc B below rho above g).
  set (be := Goda1985.calculate_bearing_pressures W tup mh mu fu B).
  assert (EB : ArrGoda1985.calculate_bearing_pressures (Sc W) (Sc tup) (Sc mh) (Sc mu) (Sc fu) (Sc B) = ret (Sc (fst (fst (fst be))), Sc (snd (fst (fst be))), Sc (snd (fst be)), Sc (snd be))).
  { unfold be, ArrGoda1985.calculate_bearing_pressures, Goda1985.calculate_bearing_pressures. cbn. destruct (_ <=? _)%num; reflexivity. }
  assert (X : expression [muf] (muf * (float W - float fu) / float fh)%arr (fun i => (place i muf * (W - fu) / fh)%num)) by expression_tac.
  destruct (settled _ _ _ (shape muf) X) as (sl & Es & Cs & Ss & Vs); [unfold float; quiet_tac|constructor; [apply stretches_refl|constructor]|].
  set (ov := ((W * tup - mu) / mh)%num).
  set (chk := Goda1985.check_validity_range beta cota T tup B h NaN).
  assert (KC : value chk = Ok tt) by (unfold chk, Goda1985.check_validity_range; mchecks; reflexivity).
  assert (CALL : call = (w1 ++ warns chk, Ok (Sc fh, Sc fu, Sc mh, Sc mu, Sc q1, Sc (fst (fst (fst be))), Sc qu, imp, sl, Sc ov))).
  { unfold call, ArrGoda1985.calculate_forces_and_reactions. unfold float in EQ |- *. rewrite EQ. apply bind_ok.
    apply (skip _ _ (Sc tup) _ eq_refl), (skip _ _ (Sc W) _ eq_refl), (skip _ _ _ _ EB).
    apply (skip _ _ (sl, Sc ov)); [unfold ArrGoda1985.calculate_safety_factors; apply (skip _ _ sl _ Es); reflexivity|].
    unfold anan. rewrite check_floats. fold tup chk. destruct chk as [wc vc]. cbn in KC. subst vc. unfold bind, ret. cbn. rewrite app_nil_r. reflexivity. }
  exists fh, fu, mh, mu, q1, (fst (fst (fst be))), qu, imp, sl, ov. split; [rewrite CALL; reflexivity|].
  split; [apply stretches_antisym; [exact Ss|exact (C_first _ _ _ Cs)]|].
  intros i I. rewrite CALL. unfold scalar, Goda1985.calculate_forces_and_reactions_tuple, Goda1985.calculate_forces_and_reactions.
  rewrite V. cbv zeta. fold tup. fold W.
  unfold bind at 1 2. cbv beta iota. unfold Goda1985.calculate_safety_factors at 1. cbn [fst snd]. fold tup. fold W. fold chk.
  destruct chk as [wc vc]. cbn in KC. subst vc. unfold bind, ret, warns. cbn. rewrite !app_nil_r, (Vs i I). reflexivity.
Qed.

(** All the other arguments have to be one number each. *)
Theorem C71_reactions_stop : forall disper HD Hsi Tmax beta h_s d B1 cota rho hacc Rc Bup above below steepness muf frac g,
  let call := ArrGoda1985.calculate_forces_and_reactions disper HD Hsi Tmax beta h_s d B1 cota rho hacc Rc Bup above below steepness muf frac g in
  paired Tmax h_s -> (forall x, one_number beta x -> isnan x = false) ->
  Exists (fun a => forall x, ~ one_number a x) [HD; Hsi; beta; h_s; d; B1; cota; rho; hacc; Rc; Bup; above; below; frac] ->
  value call = Err ValueError.
Proof.
  intros disper HD Hsi Tmax beta h_s d B1 cota rho hacc Rc Bup above below steepness muf frac g call P NB N.
  destruct (one_dec beta) as [(b & Ob)|N0].
  2:{ unfold call, ArrGoda1985.calculate_forces_and_reactions. rewrite value_bind. rewrite (proj1 (C71_pressures_stop disper HD Hsi Tmax beta h_s d B1 cota rho hacc Rc Bup steepness g) N0). reflexivity. }
  apply tame_raises.
  - unfold call, ArrGoda1985.calculate_forces_and_reactions. apply tame_bind.
    { apply (pressures_tame _ _ _ _ _ _ _ _ _ _ _ _ _ _ _ b Ob (NB b Ob)). destruct (wavelength_paired disper Tmax h_s g P) as (L & E & _). exists L. exact E. }
    intros [[[[[[[[[[[[[[[[FH FU] MH] MU] p1] p2] p3] p4] hc] pu] h5] eta] L] a1] a2] a3] imp] _.
    unfold ArrGoda1985.calculate_Wup, ArrGoda1985.calculate_bearing_pressures, ArrGoda1985.calculate_safety_factors, ArrGoda1985.check_validity_range, float. tame_tac.
  - intros r E. apply step in E as (q & Eq & E).
    apply pressures_need in Eq as (FH & FU & MH & MU & p1 & p2 & p3 & p4 & hc & pu & h5' & eta' & L & a1 & a2 & a3 & imp & -> & _ & F1 & F2 & F3).
    apply step in E as (tup & Et & E). apply step in E as (W & EW & E). apply step in E as (be & Eb & _).
    used Et [shape frac; shape Bup]. used EW [shape hacc; shape Rc; shape Bup; shape below; shape rho; shape above].
    assert (ALL : Forall (fun a : nums => stretches (shape a) (Some 1)) [W; tup; MH; MU; FU; Bup]).
    { apply Forall_forall. intros a I. apply one_shape. destruct (one_dec a) as [K|K]; [exact K|]. exfalso.
      rewrite (proj2 (C71_bearing W tup MH MU FU Bup)) in Eb; [discriminate Eb|]. apply Exists_exists. exists a. auto. }
    inversion F1 as [|? ? _ F4]; subst. inversion F4 as [|? ? G1 F5]; subst. inversion F5 as [|? ? G2 F6]; subst. inversion F6 as [|? ? G3 _]; subst.
    apply one_shape in G1, G2, G3. assert (G0 : stretches (shape beta) (Some 1)) by (apply one_shape; exists b; exact Ob). clear F1 F4 F5 F6. args_tac. ones_tac N.
Qed.

Theorem C71_check : forall beta cota Tmax tup Bup h_s B1,
  reports_places [beta; cota; Tmax; tup; Bup; h_s; B1]
    (ArrGoda1985.check_validity_range beta cota Tmax tup Bup h_s B1)
    (fun at_ => Goda1985.check_validity_range (at_ beta) (at_ cota) (at_ Tmax) (at_ tup) (at_ Bup) (at_ h_s) (at_ B1)).
Proof. intros. unfold ArrGoda1985.check_validity_range, Goda1985.check_validity_range. reports_tac. told_tac. Qed.

(** Here too only the first of several periods counts, except for the validity check. *)
Theorem C71_first_period_reactions : forall disper HD Hsi t ts beta h d B1 cota rho hacc Rc Bup above below steepness muf frac g,
  value (ArrGoda1985.calculate_forces_and_reactions disper HD Hsi (Ar (t :: ts)) beta (float h) d B1 cota rho hacc Rc Bup above below steepness muf frac g)
  = value (ArrGoda1985.calculate_forces_and_reactions disper HD Hsi (float t) beta (float h) d B1 cota rho hacc Rc Bup above below steepness muf frac g).
Proof.
  intros. unfold ArrGoda1985.calculate_forces_and_reactions. rewrite C71_first_period. rewrite !value_bind.
  destruct (value (ArrGoda1985.calculate_pressures_and_forces _ _ _ _ _ _ _ _ _ _ _ _ _ _ _)) as [p|]; [|reflexivity].
  destruct p as [[[[[[[[[[[[[[[[FH FU] MH] MU] p1] p2] p3] p4] hc] pu] h5] eta] L] a1] a2] a3] imp].
  rewrite !value_bind. destruct (value (frac * Bup)%arr) as [tup|]; [|reflexivity].
  rewrite !value_bind. destruct (value (ArrGoda1985.calculate_Wup _ _ _ _ _ _ _)) as [W|]; [|reflexivity].
  rewrite !value_bind. destruct (value (ArrGoda1985.calculate_bearing_pressures _ _ _ _ _ _)) as [[[[pe Me] We] te]|]; [|reflexivity].
  rewrite !value_bind. destruct (value (ArrGoda1985.calculate_safety_factors _ _ _ _ _ _ _)) as [[sl ov]|]; [|reflexivity].
  rewrite !value_bind.
  assert (K : forall T T', value (ArrGoda1985.check_validity_range beta cota T tup Bup (float h) anan) = value (ArrGoda1985.check_validity_range beta cota T' tup Bup (float h) anan)).
  { intros T T'. unfold ArrGoda1985.check_validity_range.
    assert (OK : forall n f (a : nums) lo hi b, value (when b (acheck n f (value_of a) lo hi)) = Ok tt) by (intros; runs_tac).
    repeat first [rewrite value_bind|rewrite OK].
    destruct (value (when _ (acheck _ _ (tup / Bup)%arr _ _))) as [[]|]; reflexivity. }
  rewrite (K (Ar (t :: ts)) (float t)). reflexivity.
Qed.

(** ** Examples: three densities, two depths with the width of the berm unknown, and an array of periods *)

Example C71_example : forall disper,
  let call rho h_s T B1 beta := ArrGoda1985.calculate_pressures_and_forces disper (lit 8) (lit 4.5) T beta h_s (lit 7) B1 (lit 50) rho (lit 9) (lit 5) (lit 20) (lit 0.02) (Fin 9.81) in
  value (ArrGoda1985.calculate_Wup (lit 10) (lit 5) (Ar [Fin 20; Fin 25]) (lit 2100) (lit 1000) (lit 2400) (lit 10)) = Ok (Ar [Fin 4600000; Fin 5750000])
  /\ (exists FH FU MH MU p1 rest, value (call (Ar [Fin 1000; Fin 1025; Fin 1010]) (lit 10) (lit 12) (lit 8) (lit 10)) = Ok rest
      /\ fst (fst (fst (fst (fst (fst (fst (fst (fst (fst (fst (fst rest))))))))))) = (FH, FU, MH, MU, p1) /\ shape FH = Some 3 /\ shape FU = Some 3 /\ shape p1 = Some 3)
  /\ (exists r, value (call (lit 1025) (Ar [Fin 10; Fin 12]) (lit 12) anan (lit 10)) = Ok r)
  /\ value (call (lit 1025) (Ar [Fin 10; Fin 12]) (lit 12) (lit 8) (lit 10)) = Err ValueError
  /\ value (call (lit 1025) (Ar [Fin 10; Fin 12]) (Ar [Fin 11; Fin 12; Fin 13]) anan (lit 10)) = Err UnboundLocalError
  /\ value (call (lit 1025) (lit 10) (lit 12) (lit 8) (Ar [Fin 10; Fin 20])) = Err ValueError.
Proof.
  intros disper call. split; [|split; [|split; [|split; [|split]]]].
  - cbn. do 3 f_equal; [f_equal; lra|]. do 2 f_equal; lra.
  - destruct (C71_pressures disper (Fin 8) (Fin 10) (Fin 5) (Fin 9.81) (lit 4.5) (lit 12) (lit 10) (lit 7) (lit 8) (lit 50) (lit 0.02) (Ar [Fin 1000; Fin 1025; Fin 1010]) (lit 9) (lit 20) (Some 3) eq_refl)
      as (FH & FU & MH & MU & p1 & p2 & p3 & p4 & hc & pu & h5 & eta & L & a1 & a2 & a3 & imp & E & _ & (S1 & S2 & S3 & S4 & S5 & S6 & S7 & S8 & S9) & _).
    { left. split; reflexivity. }
    { right. split; [reflexivity|]. repeat (constructor; [eexists; reflexivity|]). constructor. }
    { split; [apply shapes_ok; reflexivity|right; do 4 right; left; reflexivity]. }
    exists FH, FU, MH, MU, p1. eexists. split; [exact E|]. split; [reflexivity|].
    assert (K : forall l (x : nums), common l (shape x) -> common l (Some 3) -> shape x = Some 3) by (intros l x C C'; exact (common_one _ _ _ C C')).
    split; [rewrite S6|split]; (eapply K; [eassumption|split; [apply shapes_ok; reflexivity|right; repeat first [left; reflexivity|right]]]).
  - destruct (C71_pressures disper (Fin 8) (Fin 10) (Fin 5) (Fin 9.81) (lit 4.5) (lit 12) (Ar [Fin 10; Fin 12]) (lit 7) anan (lit 50) (lit 0.02) (lit 1025) (lit 9) (lit 20) (Some 2) eq_refl)
      as (FH & FU & MH & MU & p1 & p2 & p3 & p4 & hc & pu & h5 & eta & L & a1 & a2 & a3 & imp & E & _).
    { right. exists 2. split; [repeat constructor|]. split; [reflexivity|left; reflexivity]. }
    { left. reflexivity. }
    { split; [apply shapes_ok; reflexivity|right; right; left; reflexivity]. }
    eexists. exact E.
  - assert (PA : paired (lit 12) (Ar [Fin 10; Fin 12])) by (right; exists 2; split; [repeat constructor|]; split; [reflexivity|left; reflexivity]).
    destruct (C71_pressures_stop disper (lit 8) (lit 4.5) (lit 12) (lit 10) (Ar [Fin 10; Fin 12]) (lit 7) (lit 8) (lit 50) (lit 1025) (lit 9) (lit 5) (lit 20) (lit 0.02) (Fin 9.81)) as (_ & _ & _ & K).
    destruct (K (Fin 10) eq_refl eq_refl) as (_ & _ & K'); [exists (Some 2); apply shapes_ok; reflexivity|]. apply K'; [left; exact PA|]. right. right. right.
    split; [discriminate|]. intros x O. injection O as <-. reflexivity.
  - destruct (C71_pressures_stop disper (lit 8) (lit 4.5) (Ar [Fin 11; Fin 12; Fin 13]) (lit 10) (Ar [Fin 10; Fin 12]) (lit 7) anan (lit 50) (lit 1025) (lit 9) (lit 5) (lit 20) (lit 0.02) (Fin 9.81)) as (_ & _ & _ & K).
    destruct (K (Fin 10) eq_refl eq_refl) as (K' & _ & _); [exists (Some 2); apply shapes_ok; reflexivity|]. apply K'; [discriminate|].
    intros [(P & _)|(n & _ & P & [Q|Q])]; [discriminate P|discriminate Q|]. injection P as <-. discriminate Q.
  - reflexivity.
Qed.
