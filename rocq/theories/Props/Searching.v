(** Property C86: what the limit and the tolerance of an iterative search mean. *)
From Coq Require Import Reals Lra Lia List Bool Arith String.
From Verif.Lib Require Import Num Monad RTac NTac.
From Verif.Spec Require Import Searching.
From Verif.Model Require Import CoreUtility CorePhysics.
From Verif.Model Require VanGent2001 VanGent2002Velocity KramerBurcharth2004 Jumelet2024 EtemadShahidi2020 RearVanGent2007 RearVanGentPozueta2004 VanGent2025 RunupTAW2002 RunupEurotop2018.
From Verif.Proofs Require Core.
From Verif.Proofs Require Import Searching.
From Verif.Props Require RearVanGent.
Import ListNotations.

Lemma ret_bind {A B} (a : A) (f : A -> M B) : bind (ret a) f = f a.
Proof. unfold bind, ret. destruct (f a). reflexivity. Qed.
Lemma bind_nil {A} (m : M A) : bind ([], Ok tt) (fun _ => m) = m.
Proof. destruct m. reflexivity. Qed.

(** The checks of the validity ranges end in no exception and issue no other
    warnings than those about a range. *)
Definition range_check (c : M unit) : Prop := value c = Ok tt /\ forall text, ~ In (WText text) (warns c).
Lemma range_then (c d : M unit) : range_check c -> range_check d -> range_check (bind c (fun _ => d)).
Proof.
  destruct c as [w r], d as [w2 r2]. unfold range_check. cbn. intros (-> & W) (-> & W2). split; [reflexivity|].
  intros t I. cbn in I. apply in_app_or in I as [I|I]; [exact (W t I)|exact (W2 t I)].
Qed.
Lemma range_when b (c : M unit) : range_check c -> range_check (when b c).
Proof. destruct b; [auto|]. intros _. split; [reflexivity|]. intros t []. Qed.
Lemma range_one n f v lo hi : range_check (check n f v lo hi).
Proof.
  split; [apply Core.value_check|]. intros t. rewrite Core.warns_check. destruct (nlt v lo || ngt v hi); cbn; [|tauto].
  intros [E|[]]. discriminate E.
Qed.
Ltac ranges := repeat (apply range_then || apply range_when || apply range_one).
Lemma range_ret c (b : num) : range_check c -> value (bind c (fun _ => ret b)) = Ok b /\ forall text, ~ In (WText text) (warns (bind c (fun _ => ret b))).
Proof.
  destruct c as [w r]. unfold range_check. cbn. intros (-> & W). split; [reflexivity|]. intros t. cbn. rewrite app_nil_r. apply W.
Qed.

(** ** Kramer and Burcharth (2004) *)
Section Kramer.
Import KramerBurcharth2004.
Let wrap (f : num -> num) (x : num) : M (num * num) := ret (f x, f x).
Lemma iteration_loop f t n : forall x d, exists m, loop (wrap f) t n x x d = ret (m, iteration f t n x x d, iteration f t n x x d).
Proof.
  induction n as [|n IH]; intros x d; cbn [loop iteration]; destruct (ngt d t); try (eexists; reflexivity).
  unfold wrap at 1. rewrite ret_bind. apply IH.
Qed.
Lemma kramer_loop f t n x (post : num -> M num) : (1 <= n)%nat -> ngt PInf t = true ->
  post (iteration f t n x PInf PInf) = ('(_, _, b) <- loop (wrap f) t n x PInf PInf ;; post b).
Proof.
  intros N D. destruct n as [|n]; [lia|]. cbn [iteration loop]. rewrite D. unfold wrap at 1. rewrite ret_bind.
  destruct (iteration_loop f t n (f x) (nabs (nsub (f x) PInf))) as (m & ->). rewrite ret_bind. reflexivity.
Qed.
Lemma kramer_check Rc D : range_check (check_validity_range Rc D).
Proof. unfold check_validity_range. ranges. Qed.

Theorem C86_kramer_diameter : forall Hs Rc rho_armour Ns_init t,
  silent_search (fun n t => calculate_nominal_rock_diameter_Dn50 Hs Rc rho_armour Ns_init n t) PInf 1 (Fin t).
Proof.
  intros Hs Rc rho Ns t. unfold calculate_nominal_rock_diameter_Dn50. cbv zeta.
  match goal with |- silent_search (fun n t => bind (check_validity_range _ (iteration ?f t n ?x PInf PInf)) _) _ _ _ => 
    apply (silent_of_loop (wrap f) x PInf _ 1 (Fin t) [] (fun D => bind (check_validity_range Rc D) (fun _ => ret D))) end.
  - reflexivity.
  - intros b. apply range_ret, kramer_check.
  - intros n t' N [->| ->]; rewrite bind_nil; replace (S n - 1)%nat with n by lia;
      rewrite <- (kramer_loop _ _ n _ (fun D => bind (check_validity_range Rc D) (fun _ => ret D))) by (assumption || reflexivity); reflexivity.
Qed.

Theorem C86_kramer_freeboard : forall Hs rho_armour Dn50 M50 init t,
  silent_search (fun n t => calculate_crest_freeboard_Rc Hs rho_armour Dn50 M50 init n t) PInf 1 (Fin t).
Proof.
  intros Hs rho Dn50 M50 init t. unfold calculate_crest_freeboard_Rc. destruct (check_usage_Dn50_or_M50 Dn50 M50 rho) as [ws [D|e]].
  2:{ apply (silent_refused _ _ _ _ ws e). intros n t' _. reflexivity. }
  pose (f := fun Rc => ((Hs / calculate_buoyant_density_Delta rho #1025 - #1.36 * D) / (#0.06 * (Rc / D) - #0.23))%num).
  pose (post := fun R => bind (check_validity_range R D) (fun _ => ret R)).
  apply (silent_of_loop (wrap f) (nmul init D) PInf _ 1 (Fin t) ws post).
  - reflexivity.
  - intros b. apply range_ret, kramer_check.
  - intros n t' N [->| ->]; replace (S n - 1)%nat with n by lia; rewrite <- (kramer_loop f _ n _ post) by (assumption || reflexivity); reflexivity.
Qed.
End Kramer.

(** ** Jumelet et al. (2024) and Etemad-Shahidi et al. (2020) *)
Section Jumelet.
Import Jumelet2024.
Let wrap (f next : num -> num) (s : num) : M (num * num) := ret (next (f s), f s).
Lemma jumelet_loop f T cot t n : forall s a d, exists m s' b,
  loop (wrap f (fun H => calculate_Iribarren_number_ksi H T cot)) t n s a d = ret (m, s', b)
  /\ wave_height_loop f T cot t n a d s (Some a) = Some b.
Proof.
  induction n as [|n IH]; intros s a d; cbn [loop wave_height_loop]; destruct (ngt d t); try (do 3 eexists; split; reflexivity).
  unfold wrap at 1. rewrite ret_bind. apply IH.
Qed.
Lemma jumelet_check Hs T N cot : range_check (check_validity_range Hs T N cot).
Proof. unfold check_validity_range. ranges. Qed.

Theorem C86_jumelet_wave_height : forall Tmm10 N_waves cot_alpha rho_armour S Dn50 M50 c_pl g smm10_init t,
  silent_search (fun n t => calculate_significant_wave_height_Hs Tmm10 N_waves cot_alpha rho_armour S Dn50 M50 c_pl g smm10_init n t)
    (smm10_init * npow Tmm10 #2 * g / (#2 * npi))%num 1 (Fin t).
Proof.
  intros T N cot rho Sd Dn50 M50 c g s0 t. unfold calculate_significant_wave_height_Hs. destruct (check_usage_Dn50_or_M50 Dn50 M50 rho) as [ws [D|e]].
  2:{ apply (silent_refused _ _ _ _ ws e). intros n t' _. reflexivity. }
  cbv zeta. set (H0 := (s0 * npow T #2 * g / (#2 * npi))%num).
  pose (st := fun k => npow (c * npow Sd #0.2 * npow (nround (calculate_fraction_plunging_waves_Fp k * N)) (- #0.1) * cot
    * nsqrt ((#2 * npi / g) * npow T (- #2)) * calculate_buoyant_density_Delta rho #1025 * D)%num #2).
  pose (k0 := calculate_Iribarren_number_ksi H0 T cot).
  pose (post := fun H => bind (check_validity_range H T N cot) (fun _ => ret H)).
  apply (silent_of_loop (wrap st (fun H => calculate_Iribarren_number_ksi H T cot)) k0 H0 _ 1 (Fin t) ws post).
  - reflexivity.
  - intros b. apply range_ret, jumelet_check.
  - intros n t' K E. destruct n as [|n]; [lia|]. replace (Datatypes.S (Datatypes.S n) - 1)%nat with (Datatypes.S n) by lia.
    assert (D' : ngt PInf t' = true) by (destruct E as [->| ->]; reflexivity).
    cbn [loop wave_height_loop]. rewrite D'. unfold wrap at 1. rewrite ret_bind.
    destruct (jumelet_loop st T cot t' n (calculate_Iribarren_number_ksi (st k0) T cot) (st k0) (nabs (nsub (st k0) H0))) as (m & s' & b & -> & E2).
    unfold st, k0 in E2. cbv beta in E2. unfold bind at 1. rewrite E2. rewrite !ret_bind. reflexivity.
Qed.
End Jumelet.

Section Etemad.
Import EtemadShahidi2020.
Let wrap (f next : num -> num) (s : num) : M (num * num) := ret (next (f s), f s).
Lemma etemad_loop f core t n : forall s a d, exists m s' b,
  loop (wrap f (fun D => calculate_permeability_coefficient_Cp D core)) t n s a d = ret (m, s', b)
  /\ diameter_loop f core t n a d s (Some a) = Some b.
Proof.
  induction n as [|n IH]; intros s a d; cbn [loop diameter_loop]; destruct (ngt d t); try (do 3 eexists; split; reflexivity).
  unfold wrap at 1. rewrite ret_bind. apply IH.
Qed.
Lemma etemad_first f core t n s : (1 <= n)%nat -> ngt PInf t = true -> exists m s' b,
  loop (wrap f (fun D => calculate_permeability_coefficient_Cp D core)) t n s PInf PInf = ret (m, s', b)
  /\ diameter_loop f core t n PInf PInf s None = Some b.
Proof.
  intros N D. destruct n as [|n]; [lia|]. cbn [loop diameter_loop]. rewrite D. unfold wrap at 1. rewrite ret_bind. apply etemad_loop.
Qed.
Lemma etemad_check a b c d e f g h i j : range_check (check_validity_range a b c d e f g h i j).
Proof. unfold check_validity_range. ranges. Qed.

Theorem C86_etemad_diameter : forall Hs Tmm10 N_waves cot_alpha rho_armour S Dn50_core M50_core rho_core m depth_limited Cp_init t,
  silent_search (fun n t => calculate_nominal_rock_diameter_Dn50 Hs Tmm10 N_waves cot_alpha rho_armour S Dn50_core M50_core rho_core m
    depth_limited Cp_init n t) PInf 1 (Fin t).
Proof.
  intros Hs T N cot rho Sd Dc Mc rc m dl Cp t. unfold calculate_nominal_rock_diameter_Dn50.
  destruct (influence_depth dl m) as [w0 [inf|e]].
  2:{ apply (silent_refused _ _ _ _ w0 e). intros n t' _. reflexivity. }
  destruct (check_usage_Dn50_or_M50 Dc Mc rc) as [w1 [core|e]].
  2:{ apply (silent_refused _ _ _ _ (w0 ++ w1) e). intros n t' _. reflexivity. }
  cbv zeta. set (ksi := calculate_Iribarren_number_ksi Hs T cot). set (Del := calculate_buoyant_density_Delta rho #1025).
  pose (fs := fun Cp => ((Hs / Del) * (#1 / #3.9) * (#1 / Cp) * npow N (#1 / #10) * npow Sd (- #1 / #6) * npow ksi (#1 / #3) * npow inf (- #1))%num).
  pose (fp := fun Cp => ((Hs / Del) * (#1 / #4.5) * (#1 / Cp) * npow N (#1 / #10) * npow Sd (- #1 / #6) * npow ksi (#7 / #12) * npow inf (- #1))%num).
  pose (post := fun D => bind (check_validity_range Hs T N cot NaN Sd D core rho #1025) (fun _ => ret D)).
  apply (silent_of_loop (wrap (if nge ksi #1.8 then fs else fp) (fun D => calculate_permeability_coefficient_Cp D core)) Cp PInf _ 1 (Fin t) (w0 ++ w1) post).
  - reflexivity.
  - intros b. apply range_ret, etemad_check.
  - intros n t' K E. replace (Datatypes.S n - 1)%nat with n by lia.
    assert (D' : ngt PInf t' = true) by (destruct E as [->| ->]; reflexivity).
    destruct (etemad_first fs core t' n Cp K D') as (m1 & s1 & b1 & L1 & E1).
    destruct (etemad_first fp core t' n Cp K D') as (m2 & s2 & b2 & L2 & E2).
    unfold fs in E1. unfold fp in E2. unfold bind at 1 2. rewrite E1, E2. unfold bound. rewrite !ret_bind.
    destruct (nge ksi #1.8); [rewrite L1|rewrite L2]; rewrite ret_bind; unfold post, bind; cbn;
    destruct (check_validity_range Hs T N cot NaN Sd _ core rho #1025) as [w2 [[]|e]]; cbn; rewrite ?app_assoc; reflexivity.
Qed.
End Etemad.

(** ** The rear-side formulas *)
Section Rear.
Import VanGent2001 RearVanGent2007.
Definition cut_off : warning := WText "Maximum number of iterations reached, convergence not achieved".
Let wrap (z : num -> num) (h : num -> num -> num) (s : num * option num) : M (num * option num * num) :=
  ret ((h (fst s) (z (fst s)), Some (z (fst s))), h (fst s) (z (fst s))).
Lemma rear_loop z h t n : forall x prev zo,
  loop (wrap z h) t n (x, zo) x (nabs (nsub x prev)) = (let '(m, b, z') := search z h t n x prev zo in ret (m, (b, z'), b)).
Proof.
  induction n as [|n IH]; intros x prev zo; cbn [loop search]; destruct (ngt (nabs (nsub x prev)) t); try reflexivity.
  unfold wrap at 1. rewrite ret_bind. cbn [fst snd]. apply IH.
Qed.
Lemma rear_some z h t n : forall x prev z0, exists m b z1, search z h t n x prev (Some z0) = (m, b, Some z1).
Proof.
  induction n as [|n IH]; intros x prev z0; cbn [search]; [do 3 eexists; reflexivity|].
  destruct (ngt (nabs (nsub x prev)) t); [apply IH|do 3 eexists; reflexivity].
Qed.
Lemma rear_first z h t n x : (1 <= n)%nat -> ngt PInf t = true -> exists m b z1,
  search z h t n (Fin x) (nadd (Fin x) PInf) None = (m, b, Some z1)
  /\ loop (wrap z h) t n (Fin x, None) (Fin x) PInf = ret (m, (b, Some z1), b).
Proof.
  intros N D. destruct n as [|n]; [lia|].
  assert (E : nabs (nsub (Fin x) (nadd (Fin x) PInf)) = PInf) by reflexivity.
  pose proof (rear_loop z h t (S n) (Fin x) (nadd (Fin x) PInf) None) as L. rewrite E in L.
  assert (exists m b z1, search z h t (S n) (Fin x) (nadd (Fin x) PInf) None = (m, b, Some z1)) as (m & b & z1 & V).
  { cbn [search]. rewrite E, D. apply rear_some. }
  exists m, b, z1. split; [exact V|]. rewrite L, V. reflexivity.
Qed.
Lemma usage_text Dn50 M50 rho : isnan Dn50 && isnan M50 = false ->
  exists ws D, check_usage_Dn50_or_M50 Dn50 M50 rho = (ws, Ok D) /\ ~ In cut_off ws.
Proof.
  intros H. unfold check_usage_Dn50_or_M50. rewrite H.
  destruct (isnan Dn50 && negb (isnan M50)); [destruct (isnan rho)|]; do 2 eexists; (split; [reflexivity|]); cbn; intuition discriminate.
Qed.

(** Van Gent (2007): with a crest element, and the stone given. *)
Theorem C86_vangent2007_wave_height : forall cot_alpha cot_phi gamma S Tmm10 Rc c Rc2_rear N_waves Dn50 M50 rho_rock t,
  isnan Dn50 && isnan M50 = false ->
  telling_search cut_off
    (fun n t => calculate_maximum_significant_wave_height_Hs cot_alpha cot_phi gamma S Tmm10 Rc (Fin c) Rc2_rear N_waves Dn50 M50 rho_rock t n)
    (Fin c) (Fin t).
Proof.
  intros ca cp ga Sd T Rc c R2 N Dn50 M50 rho t U. unfold calculate_maximum_significant_wave_height_Hs.
  destruct (usage_text _ _ rho U) as (ws & D & -> & W).
  pose (z := fun H => invert_for_z1p cp Sd D H Rc (Fin c) R2 N). pose (h := fun H zp => invert_for_Hs H zp T ga ca invert_c0 invert_c1).
  pose (post := fun (s : num * option num) b => let zp := match snd s with Some x => x | None => NaN end in
    bind (check_validity_range Rc (Fin c) R2 NaN D NaN NaN b NaN zp Sd N) (fun _ => ret b)).
  apply (telling_of_loop (wrap z h) (Fin c, None) (Fin c) _ cut_off (Fin t) ws post).
  - reflexivity.
  - intros s b. unfold post. cbv zeta. edestruct range_ret as (V & I'); [|split; [exact V|apply I']]. unfold check_validity_range. ranges.
  - intros s. eexists. reflexivity.
  - exact W.
  - intros n t' K E. assert (D' : ngt PInf t' = true) by (destruct E as [->| ->]; reflexivity).
    destruct (rear_first z h t' n c K D') as (m & b & z1 & V & ->). unfold z, h in V. unfold bind at 1. rewrite V. rewrite ret_bind. reflexivity.
Qed.
End Rear.

(** Van Gent and Pozueta (2004) *)
Section Pozueta.
Import VanGent2001 VanGent2002Velocity RearVanGent2007 RearVanGentPozueta2004.
Theorem C86_pozueta_wave_height : forall cot_alpha cot_phi gamma_f gamma_f_Crest S Tmm10 Rc Rc_rear Bc N_waves Dn50 M50 rho_rock rho_water cs t start,
  isnan Dn50 && isnan M50 = false -> ((Rc + #0.5) / (#2.552 * gamma_f))%num = Fin start ->
  telling_search cut_off
    (fun n t => calculate_maximum_significant_wave_height_Hs cot_alpha cot_phi gamma_f gamma_f_Crest S Tmm10 Rc Rc_rear Bc N_waves Dn50 M50 rho_rock rho_water cs t n)
    (Fin start) (Fin t).
Proof.
  intros ca cp ga gc Sd T Rc R2 Bc N Dn50 M50 rho rw cs t start U St. unfold calculate_maximum_significant_wave_height_Hs.
  destruct (usage_text _ _ rho U) as (ws & D & -> & W). rewrite St.
  pose (z := fun H => invert_for_zXp H (invert_for_u1p cp Sd H T R2 N D (calculate_buoyant_density_Delta rho rw) cs) Rc Bc ga gc cu1_default cu2_default g_default).
  pose (h := fun H zp => invert_for_Hs H zp T ga ca invert_c0 invert_c1).
  pose (post := fun (s : num * option num) b => let zp := match snd s with Some x => x | None => NaN end in
    bind (check_validity_range Rc R2 cp ga D rho rw Bc b T zp Sd N) (fun _ => ret b)).
  eapply (telling_of_loop _ (Fin start, None) (Fin start) _ cut_off (Fin t) ws post).
  - reflexivity.
  - intros s b. unfold post. cbv zeta. edestruct range_ret as (V & I'); [|split; [exact V|apply I']]. unfold check_validity_range. ranges.
  - intros s. eexists. reflexivity.
  - exact W.
  - intros n t' K E. assert (D' : ngt PInf t' = true) by (destruct E as [->| ->]; reflexivity).
    destruct (rear_first z h t' n start K D') as (m & b & z1 & V & V2). rewrite V2. unfold z, h in V. unfold bind at 1. rewrite V. rewrite ret_bind. reflexivity.
Qed.
End Pozueta.

(** ** Van Gent (2025): the freeboard with the influence of wind.  The answer is
    the result of the search, or a maximum that does not depend on it; the search
    starts from the freeboard without wind. *)
Section VanGent.
Import VanGent2025.
Let wrap (f : num -> num) (x : num) : M (num * num) := ret (f x, f x).
Lemma wind_loop f t n : forall x d, exists m, loop (wrap f) t n x x d = ret (m, wind_iterations f t n x d, wind_iterations f t n x d).
Proof.
  induction n as [|n IH]; intros x d; cbn [loop wind_iterations]; destruct (ngt d t); try (eexists; reflexivity).
  unfold wrap at 1. rewrite ret_bind. apply IH.
Qed.

Theorem C86_vangent2025_freeboard : forall Hm0 Hm0_swell Tmm10 q Ac cot_alpha beta B_berm db Dn50 gamma_f gamma_b gamma_v gamma_beta g design,
  let call wind n t := calculate_dimensionless_crest_freeboard Hm0 Hm0_swell Tmm10 q Ac cot_alpha beta B_berm db Dn50
    gamma_f gamma_b gamma_v gamma_beta g design wind n t in
  (exists ws e, forall wind n t, call wind n t = (ws, Err e))
  \/ exists search start finish maximum,
     (forall t, silent_search search start 1 (Fin t))
     /\ (forall b, exists reached, value (finish b) = Ok (nmin b maximum, reached))
     /\ (forall n t, call true n t = bind (search n t) finish)
     /\ (forall n t, call false n t = finish start).
Proof.
  intros Hm0 Hsw T q Ac cot beta B db Dn50 gf gb gv gbeta g design call. unfold call, calculate_dimensionless_crest_freeboard.
  destruct (factor_f Hm0 T Dn50 gf) as [ws [gf'|e]] eqn:F.
  2:{ left. exists ws, e. intros wind n t. reflexivity. }
  assert (ws = []) as ->.
  { unfold factor_f in F. destruct (isnan gf); [destruct (isnan Dn50); [discriminate|]|]; injection F as <- _; reflexivity. }
  right. change (@nil warning, Ok gf') with (ret gf'). cbv zeta.
  set (qd := if design then _ else _). set (gbe := factor_beta beta gbeta). set (ks := calculate_Iribarren_number_ksi Hm0 T cot).
  set (gbb := factor_b Hm0 T Ac B db gb).
  pose (f := fun R => Rc_diml_equation Hm0 Hsw (ndiv qd (calculate_influence_wind_gamma_w (nmul R Hm0) Ac Hm0 qd)) cot ks gf' gbb gv gbe).
  pose (start := Rc_diml_equation Hm0 Hsw qd cot ks gf' gbb gv gbe).
  pose (maximum := Rc_diml_max_equation Hm0 Hsw q cot ks gf' gbb gv gbe g_default).
  exists (fun n t => ret (wind_iterations f t n start PInf)), start,
    (fun b => bind (check_validity_range Hm0 NaN T beta NaN cot Dn50 (nmul (nmin b maximum) Hm0) Ac NaN B db)
       (fun _ => ret (nmin b maximum, neqb (nmin (nmin b maximum) maximum) maximum))), maximum.
  split; [|split; [|split]].
  - intros t. apply (silent_of_loop (wrap f) start start _ 1 (Fin t) [] ret); [reflexivity|reflexivity|].
    intros n t' N _. rewrite bind_nil. replace (S n - 1)%nat with n by lia. destruct (wind_loop f t' n start PInf) as (m & ->). rewrite ret_bind. reflexivity.
  - intros b. eexists.
    assert (V : value (check_validity_range Hm0 NaN T beta NaN cot Dn50 (nmul (nmin b maximum) Hm0) Ac NaN B db) = Ok tt) by (unfold check_validity_range; ranges).
    destruct (check_validity_range Hm0 NaN T beta NaN cot Dn50 (nmul (nmin b maximum) Hm0) Ac NaN B db) as [w r]. cbn in V. subst r. reflexivity.
  - intros n t. rewrite (ret_bind gf'), ret_bind. reflexivity.
  - intros n t. rewrite (ret_bind gf'). reflexivity.
Qed.
End VanGent.

(** ** The average slope of TAW (2002) and EurOtop (2018) *)
Section Taw.
Import RunupTAW2002.
Section Any.
Variables (runup : num -> num -> num -> num -> num -> num -> num -> num -> num -> num -> bool -> M (num * bool))
  (Hm0 Tmm10 cd cu B db gf gbeta c1 c2 c3 c4 : num) (bf : bool).
Let stp (x : num) : M (num * num) :=
  L <- calculate_berm_length Hm0 B NaN cd cu ;;
  '(z, _) <- runup Hm0 Tmm10 gbeta (calculate_influence_berm_gamma_b Hm0 x db B L) gf (determine_average_slope Hm0 x cd cu B db) c1 c2 c3 c4 bf ;;
  ret (z, z).
Lemma z2p_loop t n : forall x prev,
  z2p_iterations runup Hm0 Tmm10 cd cu B db gf gbeta c1 c2 c3 c4 bf t n x prev
  = ('(_, _, b) <- loop stp t n x x (nabs (nsub x prev)) ;; ret b).
Proof.
  induction n as [|n IH]; intros x prev; cbn [loop z2p_iterations]; destruct (ngt (nabs (nsub x prev)) t); try reflexivity.
  assert (E : stp x = bind (calculate_berm_length Hm0 B NaN cd cu) (fun L =>
    '(z, _) <- runup Hm0 Tmm10 gbeta (calculate_influence_berm_gamma_b Hm0 x db B L) gf (determine_average_slope Hm0 x cd cu B db) c1 c2 c3 c4 bf ;;
    ret (z, z))) by reflexivity.
  rewrite E. clear E. clearbody stp. destruct (calculate_berm_length Hm0 B NaN cd cu) as [w [L|e]]; [|reflexivity].
  unfold bind. destruct (runup Hm0 Tmm10 gbeta _ gf _ c1 c2 c3 c4 bf) as [w1 [[z fl]|e]]; [|reflexivity].
  rewrite IH. unfold bind, ret. destruct (loop stp t n z z (nabs (nsub z x))) as [w2 [[[m s] b]|e]]; rewrite ?app_nil_r, ?app_assoc; reflexivity.
Qed.
Lemma z2p_start H t n : t <> 0%R ->
  z2p_iterations runup Hm0 Tmm10 cd cu B db gf gbeta c1 c2 c3 c4 bf (Fin t) (S n) (Fin H) (nadd (Fin H) (nmul #2 (Fin t)))
  = ('(_, _, b) <- loop stp (Fin t) (S n) (Fin H) (Fin H) PInf ;; ret b).
Proof.
  intros T. rewrite z2p_loop. cbn [loop].
  assert (E : ngt (nabs (nsub (Fin H) (nadd (Fin H) (nmul #2 (Fin t))))) (Fin t) = true).
  { cbn. unfold ngt, nlt. apply Rltb_true. replace (H + - (H + 2 * t))%R with (- (2 * t))%R by ring. rewrite Rabs_Ropp.
    destruct (Rle_dec 0 t) as [P|P]; [rewrite Rabs_right by lra; lra|rewrite Rabs_left by lra; lra]. }
  rewrite E. reflexivity.
Qed.
End Any.

Theorem C86_taw_average_slope : forall H Tmm10 cd cu B db gf gbeta c1 c2 c3 c4 bf t, t <> 0%R ->
  silent_search (fun n t => iteration_procedure_z2p (Fin H) Tmm10 cd cu B db gf gbeta c1 c2 c3 c4 bf t n) (Fin (1.5 * H)) 0 (Fin t).
Proof.
  intros H T cd cu B db gf gbeta c1 c2 c3 c4 bf t Nt.
  eapply (silent_of_loop _ (Fin (1.5 * H)) (Fin (1.5 * H)) _ 0 (Fin t) [] ret); [reflexivity|reflexivity|].
  intros n t' _ [->| ->]; rewrite bind_nil; unfold iteration_procedure_z2p, iteration_procedure_z2p_body; cbv zeta;
    cbn [nmul]; replace (S n - 0)%nat with (S n) by lia; [apply z2p_start; exact Nt|apply z2p_start; lra].
Qed.
Theorem C86_eurotop_average_slope : forall H Tmm10 cd cu B db gf gbeta c1 c2 c3 c4 bf t, t <> 0%R ->
  silent_search (fun n t => RunupEurotop2018.iteration_procedure_z2p (Fin H) Tmm10 cd cu B db gf gbeta c1 c2 c3 c4 bf t n) (Fin (1.5 * H)) 0 (Fin t).
Proof.
  intros H T cd cu B db gf gbeta c1 c2 c3 c4 bf t Nt. unfold RunupEurotop2018.iteration_procedure_z2p.
  destruct (RunupEurotop2018.check_best_fit c1 c2 c3 c4 bf) as [[[a1 a2] a3] a4]. apply C86_taw_average_slope, Nt.
Qed.

(** A tolerance of zero ends it before the first step. *)
Theorem C86_average_slope_zero_tolerance : forall H Tmm10 cd cu B db gf gbeta c1 c2 c3 c4 bf n,
  iteration_procedure_z2p (Fin H) Tmm10 cd cu B db gf gbeta c1 c2 c3 c4 bf #0 n = ret (Fin (1.5 * H))
  /\ RunupEurotop2018.iteration_procedure_z2p (Fin H) Tmm10 cd cu B db gf gbeta c1 c2 c3 c4 bf #0 n = ret (Fin (1.5 * H)).
Proof.
  assert (Z : forall H Tmm10 cd cu B db gf gbeta c1 c2 c3 c4 bf n,
    iteration_procedure_z2p (Fin H) Tmm10 cd cu B db gf gbeta c1 c2 c3 c4 bf #0 n = ret (Fin (1.5 * H))).
  { intros. unfold iteration_procedure_z2p, iteration_procedure_z2p_body. cbv zeta. cbn [nmul z2p_iterations].
    replace (ngt _ _) with false; [reflexivity|]. symmetry. cbn. unfold ngt, nlt. apply Rltb_false.
    match goal with |- (Rabs ?x <= 0)%R => replace x with 0%R by ring end. rewrite Rabs_R0. lra. }
  intros. split; [apply Z|]. unfold RunupEurotop2018.iteration_procedure_z2p.
  destruct (RunupEurotop2018.check_best_fit c1 c2 c3 c4 bf) as [[[a1 a2] a3] a4]. apply Z.
Qed.
End Taw.

(** ** What a caller can rely on *)
Theorem C86_dependable :
  (forall Hs Rc rho Ns_init, dependable (fun _ => True) (fun n t => KramerBurcharth2004.calculate_nominal_rock_diameter_Dn50 Hs Rc rho Ns_init n t) 1)
  /\ (forall Hs rho Dn50 M50 init, dependable (fun _ => True) (fun n t => KramerBurcharth2004.calculate_crest_freeboard_Rc Hs rho Dn50 M50 init n t) 1)
  /\ (forall T N cot rho S Dn50 M50 c_pl g s0,
       dependable (fun _ => True) (fun n t => Jumelet2024.calculate_significant_wave_height_Hs T N cot rho S Dn50 M50 c_pl g s0 n t) 1)
  /\ (forall Hs T N cot rho S Dc Mc rc m limited Cp,
       dependable (fun _ => True) (fun n t => EtemadShahidi2020.calculate_nominal_rock_diameter_Dn50 Hs T N cot rho S Dc Mc rc m limited Cp n t) 1)
  /\ (forall cot phi gamma S T Rc c rear N Dn50 M50 rho, isnan Dn50 && isnan M50 = false ->
       dependable (fun _ => True)
         (fun n t => RearVanGent2007.calculate_maximum_significant_wave_height_Hs cot phi gamma S T Rc (Fin c) rear N Dn50 M50 rho t n) 1)
  /\ (forall cot phi gf gc S T Rc rear Bc N Dn50 M50 rho rho_water cs, isnan Dn50 && isnan M50 = false -> finite ((Rc + #0.5) / (#2.552 * gf))%num ->
       dependable (fun _ => True)
         (fun n t => RearVanGentPozueta2004.calculate_maximum_significant_wave_height_Hs cot phi gf gc S T Rc rear Bc N Dn50 M50 rho rho_water cs t n) 1)
  /\ (forall H T cd cu B db gf gbeta c1 c2 c3 c4 bf,
       dependable (fun t => 0 < t)%R (fun n t => RunupTAW2002.iteration_procedure_z2p (Fin H) T cd cu B db gf gbeta c1 c2 c3 c4 bf t n) 0)
  /\ (forall H T cd cu B db gf gbeta c1 c2 c3 c4 bf,
       dependable (fun t => 0 < t)%R (fun n t => RunupEurotop2018.iteration_procedure_z2p (Fin H) T cd cu B db gf gbeta c1 c2 c3 c4 bf t n) 0).
Proof.
  split; [intros; eapply silent_dependable; intros t _; apply C86_kramer_diameter|].
  split; [intros; eapply silent_dependable; intros t _; apply C86_kramer_freeboard|].
  split; [intros; eapply silent_dependable; intros t _; apply C86_jumelet_wave_height|].
  split; [intros; eapply silent_dependable; intros t _; apply C86_etemad_diameter|].
  split; [intros; eapply telling_dependable; intros t; apply C86_vangent2007_wave_height; assumption|].
  split; [intros ? ? ? ? ? ? ? ? ? ? ? ? ? ? ? U (start & St); eapply telling_dependable; intros t; apply C86_pozueta_wave_height; [exact U|exact St]|].
  split; intros; eapply silent_dependable; intros t Ht; [apply C86_taw_average_slope|apply C86_eurotop_average_slope]; lra.
Qed.

(** The warning of the rear-side searches does not mean that they have not
    settled: where a call with some limit does not warn, a call with a lower
    limit warns and gives the same answer, which every higher limit gives too. *)
Lemma false_alarm call start t limit : telling_search cut_off call start (Fin t) -> (1 <= limit)%nat ->
  ~ In cut_off (warns (call limit (Fin t))) ->
  exists k, (1 <= k < limit)%nat /\ In cut_off (warns (call k (Fin t)))
  /\ forall m, (k <= m)%nat -> value (call m (Fin t)) = value (call limit (Fin t)).
Proof.
  intros L N W. destruct (L limit N) as (k & before & later & r & (K & C & F) & B & A & E1 & E2).
  destruct (Nat.eqb_spec k limit) as [->|Q].
  { exfalso. apply W. rewrite E2. apply in_or_app. right. left. reflexivity. }
  destruct C as [C|C]; [lia|]. exists k. split; [lia|].
  assert (X : forall m, (k <= m)%nat -> exists b' l', call m (Fin t) = ((b' ++ (if Nat.eqb k m then [cut_off] else []) ++ l')%list, Ok r)).
  { intros m M. destruct (L m ltac:(lia)) as (k' & b' & l' & r' & S' & _ & _ & E1' & E2').
    assert (k' = k) as ->. { apply (steps_unique call start 1 m (Fin t)); [exact S'|]. split; [lia|]. split; [right; exact C|exact F]. }
    rewrite E1 in E1'. injection E1' as _ <-. exists b', l'. exact E2'. }
  split.
  - destruct (X k ltac:(lia)) as (b' & l' & ->). rewrite Nat.eqb_refl. apply in_or_app. right. left. reflexivity.
  - intros m M. destruct (X m M) as (b' & l' & ->). rewrite E2. reflexivity.
Qed.

Theorem C86_warning_means_not_settled_refuted :
  exists cot phi gamma S T Rc front rear N D t,
  let call n := RearVanGent2007.calculate_maximum_significant_wave_height_Hs (Fin cot) (Fin phi) (Fin gamma) (Fin S) (Fin T) (Fin Rc)
    (Fin front) (Fin rear) (Fin N) (Fin D) NaN NaN (Fin t) n in
  (0 < t)%R /\ exists k H, In cut_off (warns (call k)) /\ (forall m, (k <= m)%nat -> value (call m) = Ok (Fin H))
  /\ exists z, value (RearVanGent2007.calculate_damage_number_S (Fin cot) (Fin phi) (Fin gamma) (Fin z) (Fin T) (Fin Rc) (Fin front)
                       (Fin rear) (Fin N) (Fin D) NaN NaN) = Ok (Fin S) /\ (Rabs (H - z) <= 2 * t)%R.
Proof.
  exists 2%R, 2%R, 0.5%R, 10%R, 6%R, 3%R, 1%R, 1%R, 2500%R, 0.5%R, 0.001%R. cbv zeta. split; [lra|].
  destruct (RearVanGent.C49_wave_height_search 2 2 0.5 6 3 1 1 2500 0.5 10 NaN NaN) as (H & PH & U & C); try lra.
  destruct (C 0.001%R ltac:(lra)) as (V & enough & W).
  set (call := fun n (t : num) => RearVanGent2007.calculate_maximum_significant_wave_height_Hs #2 #2 #0.5 #10 #6 #3 #1 #1 #2500 #0.5 NaN NaN t n).
  assert (T : telling_search cut_off call #1 (Fin 0.001)) by (apply C86_vangent2007_wave_height; reflexivity).
  destruct (false_alarm call #1 0.001 (S enough) T ltac:(lia)) as (k & K & I & A).
  { apply W. lia. }
  destruct (V enough) as (Hc & E & _ & B). exists k, Hc. split; [exact I|]. split.
  - intros m M. fold (call m (Fin 0.001)). rewrite A by exact M. exact E.
  - exists H. split; [apply (U H PH); reflexivity|]. apply B; [apply W; lia|lra].
Qed.
Theorem C86_false_alarm : forall cot_alpha cot_phi gamma S Tmm10 Rc c Rc2_rear N_waves Dn50 M50 rho_rock t limit,
  let call n := RearVanGent2007.calculate_maximum_significant_wave_height_Hs cot_alpha cot_phi gamma S Tmm10 Rc (Fin c) Rc2_rear N_waves Dn50 M50 rho_rock (Fin t) n in
  isnan Dn50 && isnan M50 = false -> (1 <= limit)%nat -> ~ In cut_off (warns (call limit)) ->
  exists k, (1 <= k < limit)%nat /\ In cut_off (warns (call k)) /\ forall m, (k <= m)%nat -> value (call m) = value (call limit).
Proof.
  intros. exact (false_alarm _ _ t limit (C86_vangent2007_wave_height cot_alpha cot_phi gamma S Tmm10 Rc c Rc2_rear N_waves Dn50 M50 rho_rock t H) H0 H1).
Qed.
Theorem C86_false_alarm_pozueta : forall cot_alpha cot_phi gamma_f gamma_f_Crest S Tmm10 Rc Rc_rear Bc N_waves Dn50 M50 rho_rock rho_water cs t limit,
  let call n := RearVanGentPozueta2004.calculate_maximum_significant_wave_height_Hs cot_alpha cot_phi gamma_f gamma_f_Crest S Tmm10 Rc Rc_rear Bc N_waves
    Dn50 M50 rho_rock rho_water cs (Fin t) n in
  isnan Dn50 && isnan M50 = false -> finite ((Rc + #0.5) / (#2.552 * gamma_f))%num -> (1 <= limit)%nat -> ~ In cut_off (warns (call limit)) ->
  exists k, (1 <= k < limit)%nat /\ In cut_off (warns (call k)) /\ forall m, (k <= m)%nat -> value (call m) = value (call limit).
Proof.
  intros ca cp gf gc S T Rc Rr Bc N D M rho rw cs t limit call U (start & St) L W.
  exact (false_alarm _ _ t limit (C86_pozueta_wave_height ca cp gf gc S T Rc Rr Bc N D M rho rw cs t start U St) L W).
Qed.

(** Stones of 2050 kg/m3 under waves of 1.36 m, crest 1 m above water, from a
    start of 1 m: 1.125 m after one step; with a tolerance of 0.1 m all limits from
    two steps on give the answer of two steps. *)
Example C86_example :
  let call n := KramerBurcharth2004.calculate_nominal_rock_diameter_Dn50 #1.36 #1 #2050 #1.36 n #0.1 in
  value (call 1%nat) = Ok (Fin 1.125) /\ value (call 2%nat) <> value (call 1%nat) /\ forall n, (2 <= n)%nat -> value (call n) = value (call 2%nat).
Proof.
  cbv beta zeta.
  assert (S0 : forall x, (0 < x)%R -> (#1 / #1.36 * (#1.36 / calculate_buoyant_density_Delta #2050 #1025 - #1 * (#0.06 * (#1 / Fin x) - #0.23)))%num
     = Fin (1 / 1.36 * (1.36 - (0.06 / x - 0.23)))).
  { intros x X. unfold calculate_buoyant_density_Delta. nfin. f_equal. field. lra. }
  assert (D0 : (#1.36 / (calculate_buoyant_density_Delta #2050 #1025 * #1.36))%num = Fin 1).
  { unfold calculate_buoyant_density_Delta. nfin. f_equal. field; lra. }
  assert (E1 : (1 / 1.36 * (1.36 - (0.06 / 1 - 0.23)) = 1.125)%R) by (field_simplify; lra).
  assert (V : forall n, value (KramerBurcharth2004.calculate_nominal_rock_diameter_Dn50 #1.36 #1 #2050 #1.36 n #0.1)
    = Ok (KramerBurcharth2004.iteration (fun D => (#1 / #1.36 * (#1.36 / calculate_buoyant_density_Delta #2050 #1025 - #1 * (#0.06 * (#1 / D) - #0.23)))%num)
       #0.1 n #1 PInf PInf)).
  { intros n. unfold KramerBurcharth2004.calculate_nominal_rock_diameter_Dn50. cbv zeta. rewrite D0.
    exact (proj1 (range_ret _ _ (kramer_check _ _))). }
  set (f := fun D => _) in V.
  assert (F1 : f #1 = Fin 1.125) by (unfold f; rewrite S0 by lra; rewrite E1; reflexivity).
  pose (x2 := (1 / 1.36 * (1.36 - (0.06 / 1.125 - 0.23)))%R).
  assert (F2 : f #1.125 = Fin x2) by (unfold f; rewrite S0 by lra; reflexivity).
  assert (B : (1.12 < x2 < 1.13 /\ x2 <> 1.125)%R) by (unfold x2; split; lra). destruct B as (B & Nq). clearbody f x2.
  assert (G : ngt (nabs (nsub (Fin x2) #1.125)) #0.1 = false).
  { cbn. unfold ngt, nlt. apply Rltb_false. apply Rabs_le. lra. }
  assert (T : forall n, KramerBurcharth2004.iteration f #0.1 (S (S n)) #1 PInf PInf = Fin x2).
  { intros n. cbn [KramerBurcharth2004.iteration]. change (ngt PInf #0.1) with true. cbv beta iota zeta. rewrite F1.
    change (nabs (nsub #1.125 PInf)) with PInf. change (ngt PInf #0.1) with true. cbv beta iota zeta. rewrite F2.
    destruct n; cbn [KramerBurcharth2004.iteration]; rewrite G; reflexivity. }
  assert (O : KramerBurcharth2004.iteration f #0.1 1 #1 PInf PInf = #1.125).
  { cbn [KramerBurcharth2004.iteration]. change (ngt PInf #0.1) with true. cbv beta iota zeta. rewrite F1. reflexivity. }
  rewrite !V, O, T. split; [reflexivity|]. split; [intros E; injection E; exact Nq|].
  intros [|[|n]] N; try lia. rewrite V, T. reflexivity.
Qed.
