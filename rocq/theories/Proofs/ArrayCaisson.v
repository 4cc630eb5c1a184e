(** One number per argument, wave lengths and results in turn (caissons). *)
From Coq Require Import Reals Lra Lia List Bool Arith.
From Verif.Lib Require Import Num Monad Arr ArrFlags ArrLoop RTac NTac.
From Verif.Spec Require Import Arrays ArrayFlags ArrayStacks ArrayLoops ArrayOne ArrayWide ArrayWarnings ArrayCalls ArrayCaisson.
From Verif.Model Require Import CoreUtility ArrCore.
From Verif.Model Require CorePhysics ArrGoda1985.
From Verif.Proofs Require Import Warns Core CheckTac Arrays ArrayLoops ArrayFlags ArrayTaw ArrayStacks ArrayWarnings ArrayCalls ArrayOne ArrayWide.
Import ListNotations.
Open Scope nat_scope.

Lemma settle args e v sh : expression args e v -> Forall (fun a => stretches (shape a) sh) args ->
  exists r, value e = Ok r /\ common args (shape r) /\ stretches (shape r) sh /\ forall i, inside sh i -> place i r = v i.
Proof.
  intros X F. destruct (proj1 X sh F) as (r & E & S & V). exists r. split; [exact E|].
  split; [exact (expression_shape _ _ _ _ X E)|]. split; [exact S|]. intros i I. unfold place. rewrite (V i I). reflexivity.
Qed.
Lemma one_shape (a : nums) : stretches (shape a) (Some 1) <-> exists x, one_number a x.
Proof.
  split.
  - destruct a as [x|[|x [|y l]]]; [intros _; exists x; reflexivity| |intros _; exists x; reflexivity|];
      intros [H|[(H & _)|H]]; discriminate H.
  - intros (x & O). destruct a as [z|[|z [|z' l]]]; try discriminate O; [left; reflexivity|right; right; reflexivity].
Qed.
Lemma truth_one (b : arr bool) v : value (truth b) = Ok v -> stretches (shape b) (Some 1) /\ forall i, at_ b i = Some v.
Proof.
  destruct b as [x|[|x [|y l]]]; cbn; intros E; try discriminate E; injection E as ->.
  - split; [left; reflexivity|reflexivity].
  - split; [right; right; reflexivity|reflexivity].
Qed.
Lemma one_at (a : nums) x : one_number a x <-> stretches (shape a) (Some 1) /\ place 0 a = x.
Proof.
  split; [intros O; split; [apply one_shape; exists x; exact O|exact (one_place _ _ 0 O)]|].
  intros (S & <-). apply one_shape in S as (y & O). rewrite (one_place _ _ 0 O). exact O.
Qed.
Lemma holds_one c v : den (Some 1) c v -> holds c = (fst c, Ok (v 0)).
Proof.
  intros (r & E & S & V). destruct c as [w c]. cbn in E. subst c. unfold holds, bind. cbn [fst snd].
  specialize (V 0). cbn in V. specialize (V (le_n 1)).
  destruct r as [x|[|x [|y l]]]; cbn in V |- *; try (injection V as ->; rewrite app_nil_r; reflexivity); try discriminate V.
  destruct S as [S|[(S & _)|S]]; discriminate S.
Qed.
Lemma holds_shape c v : value (holds c) = Ok v -> exists b, value c = Ok b /\ stretches (shape b) (Some 1) /\ forall i, at_ b i = Some v.
Proof. intros E. apply step in E as (b & E & T). exists b. split; [exact E|exact (truth_one _ _ T)]. Qed.
Lemma holds_uses c v L : value (holds c) = Ok v -> uses c L -> Forall (fun s => stretches s (Some 1)) L.
Proof.
  intros E U. apply holds_shape in E as (b & E & S & _). eapply Forall_impl; [|exact (U b E)]. intros s H. exact (stretches_trans _ _ _ H S).
Qed.
(** One of the arguments is not one number, but all stretch to one entry *)
Ltac ones_tac N :=
  repeat (apply Exists_cons in N as [N|N];
    [match type of N with forall x, ~ one_number ?a x => assert (K : stretches (shape a) (Some 1)) by eauto 12 using stretches_trans;
       apply one_shape in K as (?y & K); exact (N _ K) end|]); inversion N.
Lemma wavelength_paired disper T h g : paired T h ->
  exists L, value (ArrGoda1985.calculate_local_wavelength disper T h g) = Ok L /\ shape L = shape h
  /\ forall i, inside (shape h) i -> place i L = CorePhysics.local_wavelength disper (place i T) (place i h) g.
Proof.
  unfold ArrGoda1985.calculate_local_wavelength, CorePhysics.calculate_local_wavelength, CorePhysics.local_wavelength.
  intros [(ST & SH)|(n & N & SH & ST)].
  - destruct T as [t|]; [|discriminate ST]. destruct h as [h|]; [|discriminate SH]. eexists. split; [reflexivity|]. split; [reflexivity|]. reflexivity.
  - destruct h as [|hs]; [discriminate SH|]. injection SH as <-. cbn [ArrGoda1985.py shape].
    rewrite (proj2 (Nat.ltb_lt _ _) N). destruct ST as [ST|ST].
    + destruct T as [t|]; [|discriminate ST]. eexists. split; [reflexivity|]. cbn [ArrGoda1985.of_py ArrGoda1985.py shape]. split; [rewrite !map_length; reflexivity|].
      intros i I. unfold place. destruct (at_some (Ar hs) _ i (stretches_refl _) I) as (x & E). rewrite E.
      cbn [inside] in I. apply at_nth in E; [|exact I].
      rewrite (nth_at _ i (CorePhysics.two_pi / disper (CorePhysics.two_pi / t) x g)%num); [reflexivity| |rewrite !map_length; exact I].
      rewrite !nth_error_map, E. reflexivity.
    + destruct T as [|ts]; [discriminate ST|]. injection ST as ST. cbn [ArrGoda1985.py]. replace (Nat.eqb (length hs) (length ts)) with true by (rewrite ST; symmetry; apply Nat.eqb_refl).
      eexists. split; [reflexivity|]. cbn [ArrGoda1985.of_py shape]. split; [rewrite !map_length, combine_length; f_equal; lia|].
      intros i I. unfold place. destruct (at_some (Ar hs) _ i (stretches_refl _) I) as (x & E). rewrite E.
      cbn [inside] in I. assert (I' : i < length ts) by lia. destruct (at_some (Ar ts) (Some (length ts)) i (stretches_refl _) I') as (t & E'). rewrite E'.
      apply at_nth in E; [|exact I]. apply at_nth in E'; [|exact I'].
      assert (EC : nth_error (combine hs ts) i = Some (x, t)).
      { clear - E E'. revert ts i E E'. induction hs as [|a l IH]; intros [|b m] [|i] E E'; cbn in *; try discriminate; [congruence|auto]. }
      rewrite (nth_at _ i (CorePhysics.two_pi / disper (CorePhysics.two_pi / t) x g)%num); [reflexivity| |rewrite !map_length, combine_length; lia].
      rewrite !nth_error_map, EC. reflexivity.
Qed.
Lemma quiet_is {A} (m : M A) x : quiet m -> value m = Ok x -> m = ret x.
Proof. destruct m as [w r]. unfold quiet, warns, value, ret. cbn. congruence. Qed.
Lemma holds_den c v : quiet c -> den (Some 1) c v -> holds c = ret (v 0).
Proof. intros Q D. rewrite (holds_one _ _ D). unfold ret. f_equal. exact Q. Qed.
Lemma wavelength_quiet disper T h g : quiet (CorePhysics.calculate_local_wavelength disper T h g).
Proof.
  unfold CorePhysics.calculate_local_wavelength. destruct h as [x|x|l].
  1,2: destruct (map _ _); reflexivity.
  destruct (Nat.ltb _ _); [|reflexivity]. destruct T; try reflexivity. destruct (Nat.eqb _ _); reflexivity.
Qed.
Lemma given_by args (x : nums) (l : list nums) : common args (shape x) ->
  (forall s, Forall (fun a => stretches (shape a) s) l -> Forall (fun a => stretches (shape a) s) args) ->
  Forall (fun a => stretches (shape a) (shape x)) l -> common l (shape x).
Proof.
  intros C H F. destruct (common_exists _ _ F) as (s & C'). replace (shape x) with s; [exact C'|].
  apply stretches_antisym; [exact (common_stretches _ _ _ C' F)|]. apply (common_stretches _ _ _ C), H, C'.
Qed.
Lemma settled args e v sh : expression args e v -> quiet e -> Forall (fun a => stretches (shape a) sh) args ->
  exists r, e = ret r /\ common args (shape r) /\ stretches (shape r) sh /\ forall i, inside sh i -> place i r = v i.
Proof.
  intros X Q F. destruct (settle _ _ _ _ X F) as (r & E & C & S & V). exists r. split; [exact (quiet_is _ _ Q E)|]. auto.
Qed.
Lemma skip {A B} (m : M A) (k : A -> M B) x r : m = ret x -> k x = r -> (y <- m ;; k y) = r.
Proof. intros -> <-. apply bind_ret_l. Qed.
Lemma C_first (a : nums) l s : common (a :: l) s -> stretches (shape a) s.
Proof. intros (F & _). inversion F; assumption. Qed.
Tactic Notation "settle_tac" constr(X) constr(sh) ident(r) ident(E) ident(C) ident(S) ident(V) :=
  destruct (settled _ _ _ sh X) as (r & E & C & S & V);
  [unfold float; autounfold with arrays; quiet_tac|repeat (constructor; [assumption|]); constructor|].
Ltac known := first [assumption|match goal with C : common _ (shape ?x) |- stretches (shape ?x) _ => eapply common_stretches; [exact C|repeat (constructor; [known|]); constructor] end].
Ltac take E v H := apply step in E as (v & H & E).
Ltac used H L :=
  match type of H with value ?e = Ok ?r =>
    let U := fresh "U" in assert (U : uses e L) by (unfold float; autounfold with arrays; eapply uses_incl; [uses_tac|incl_tac]); specialize (U r H); clear H end.
Lemma acheck_float n f (x : num) lo hi : acheck n f (value_of (Sc x)) lo hi = check n f x lo hi.
Proof. unfold acheck. apply (skip _ _ (Sc x) _ eq_refl). reflexivity. Qed.
Lemma given_float x : given (Sc x) = provided x.
Proof. unfold given, provided, any_nan. cbn. rewrite orb_false_r. reflexivity. Qed.
Lemma bind_ok {A B} w (a : A) (k : A -> M B) w' r : k a = (w', r) -> bind (w, Ok a) k = (w ++ w', r).
Proof. unfold bind. intros ->. reflexivity. Qed.
Lemma one_dec (a : nums) : (exists x, one_number a x) \/ (forall x, ~ one_number a x).
Proof. destruct a as [x|[|x [|y l]]]; [left; exists x; reflexivity|right; discriminate|left; exists x; reflexivity|right; discriminate]. Qed.
