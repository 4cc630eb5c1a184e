From Coq Require Import Reals Lra List Bool Arith Lia.
From Verif.Lib Require Import Num Monad Arr ArrLoop RTac NTac.
From Verif.Spec Require Import Arrays ArrayLoops.
From Verif.Model Require CorePhysics ArrCore.
From Verif.Proofs Require Import Arrays.
Import ListNotations.
Open Scope nat_scope.

Lemma entry_place {A} (a : arr A) sh x : stretches (shape a) sh -> sh <> Some 0 -> In x (entries a) -> exists i, inside sh i /\ at_ a i = Some x.
Proof.
  intros S N I. destruct a as [y|[|y [|z l]]]; cbn [entries] in I.
  - destruct I as [->|[]]. exists 0. split; [|reflexivity]. destruct sh as [[|n]|]; cbn; congruence || lia || exact Logic.I.
  - destruct I.
  - destruct I as [->|[]]. exists 0. split; [|reflexivity]. destruct sh as [[|n]|]; cbn; congruence || lia || exact Logic.I.
  - destruct (In_nth_error _ _ I) as (i & E). exists i. split; [|exact E].
    destruct S as [S|[(S & _)|S]]; try discriminate. subst sh. cbn [inside shape]. apply nth_error_Some. congruence.
Qed.

(** ** np.max *)
Lemma nmax_nan x y : isnan (nmax x y) = (isnan x || isnan y)%bool.
Proof. unfold nmax. destruct (isnan x) eqn:X, (isnan y) eqn:Y; cbn; auto. destruct (nlt x y); auto. Qed.
Lemma nlt_trans x y z : nlt x y = true -> nlt y z = true -> nlt x z = true.
Proof.
  destruct x as [a| | |], y as [b| | |], z as [c| | |]; cbn; try discriminate; auto.
  destruct (Rltb_spec a b), (Rltb_spec b c); try discriminate. intros _ _. apply Rltb_true. lra.
Qed.
Lemma nlt_total x y z : isnan y = false -> nlt x z = true -> nlt x y = true \/ nlt y z = true.
Proof.
  destruct x as [a| | |], y as [b| | |], z as [c| | |]; cbn; try discriminate; auto.
  destruct (Rltb_spec a c); [|discriminate]. intros _ _. destruct (Rltb_spec a b); [auto|]. right. apply Rltb_true. lra.
Qed.
Lemma nmax_gt x y t : isnan x = false -> isnan y = false -> (ngt (nmax x y) t = true <-> ngt x t = true \/ ngt y t = true).
Proof.
  intros X Y. unfold nmax, ngt. rewrite X, Y. cbn [orb]. destruct (nlt x y) eqn:E.
  - split; [auto|]. intros [H|H]; [|auto]. eapply nlt_trans; eauto.
  - split; [auto|]. intros [H|H]; [auto|]. destruct (nlt_total t x y X H); [auto|congruence].
Qed.
Lemma fold_nmax l : forall x t,
  ngt (fold_left nmax l x) t = true <->
  (forall y, In y (x :: l) -> isnan y = false) /\ exists y, In y (x :: l) /\ ngt y t = true.
Proof.
  induction l as [|z l IH]; intros x t; cbn [fold_left].
  - split.
    + intros H. split; [|exists x; cbn; auto]. intros y [<-|[]]. destruct x; auto. unfold ngt in H. destruct t; discriminate.
    + intros (_ & y & [<-|[]] & H). exact H.
  - rewrite IH. split.
    + intros (N & y & I & G). pose proof (N (nmax x z) (or_introl eq_refl)) as M. rewrite nmax_nan in M. apply orb_false_iff in M as (X & Z).
      split.
      * intros w [<-|[<-|W]]; auto. apply N. right. auto.
      * destruct I as [<-|I]; [|exists y; cbn; auto]. apply nmax_gt in G; auto. destruct G; [exists x|exists z]; cbn; auto.
    + intros (N & y & I & G).
      assert (X : isnan x = false) by (apply N; cbn; auto). assert (Z : isnan z = false) by (apply N; cbn; auto).
      split.
      * intros w [<-|W]; [rewrite nmax_nan, X, Z; reflexivity|]. apply N. cbn. auto.
      * destruct I as [<-|[<-|I]]; [| |exists y; cbn; auto]; exists (nmax x z); (split; [cbn; auto|]); apply nmax_gt; auto.
Qed.

Lemma greatest_places sh (a : nums) d t : sh <> Some 0 -> den sh (value_of a) d ->
  exists g, value (greatest a) = Ok g
  /\ (ngt g t = true <-> (forall i, inside sh i -> isnan (d i) = false) /\ exists i, inside sh i /\ ngt (d i) t = true).
Proof.
  intros N (r & E & S & V). injection E as <-. unfold greatest.
  destruct (entries a) as [|x l] eqn:L.
  - exfalso. assert (I : inside sh 0) by (destruct sh as [[|n]|]; cbn; congruence || lia || exact Logic.I).
    specialize (V 0 I). apply at_entry in V. rewrite L in V. destruct V.
  - exists (fold_left nmax l x). split; [reflexivity|]. rewrite fold_nmax, <- L. split.
    + intros (F & y & I & G). split.
      * intros i J. apply F. apply (at_entry a i). apply V. exact J.
      * destruct (entry_place a sh y S N I) as (i & J & A). exists i. split; [exact J|]. rewrite V in A by exact J. injection A as ->. exact G.
    + intros (F & i & J & G). split.
      * intros y I. destruct (entry_place a sh y S N I) as (k & K & A). rewrite V in A by exact K. injection A as <-. apply F. exact K.
      * exists (d i). split; [|exact G]. apply (at_entry a i). apply V. exact J.
Qed.

(** ** The scalar loop *)
Fixpoint until1 (next feed : num -> num) (tolerance : num) (todo : nat) (state prev diff : num) (cur : option num) : option num :=
  if ngt diff tolerance then
    match todo with
    | O => cur
    | S todo => let y := next state in until1 next feed tolerance todo (feed y) y (nabs (y - prev)%num) (Some y)
    end
  else cur.

Section Sequence.
Variables next feed : num -> num.
Variables s0 p0 d0 : num.
(** [ys m] is the value after m+1 iterations. *)
Fixpoint ys (m : nat) : num := match m with O => next s0 | S m => next (feed (ys m)) end.
Definition pv (m : nat) : num := match m with O => p0 | S m => ys m end.
Definition st (m : nat) : num := match m with O => s0 | S m => feed (ys m) end.
Definition df (m : nat) : num := match m with O => d0 | S m => nabs (ys m - pv m)%num end.
Lemma ys_st m : ys m = next (st m). Proof. destruct m; reflexivity. Qed.

Lemma nabs_above x : isnan x = false -> ngt (nabs x) (Fin (-1)) = true.
Proof. destruct x; cbn; try discriminate; auto. intros _. apply Rltb_true. pose proof (Rabs_pos r). lra. Qed.
Lemma nabs_nan x : isnan (nabs x) = isnan x. Proof. destruct x; reflexivity. Qed.

Lemma until1_from n : forall m cur, (forall k, m <= k < m + n -> ngt (df k) (Fin (-1)) = true) ->
  until1 next feed (Fin (-1)) n (st m) (pv m) (df m) cur = match n with O => cur | S n => Some (ys (m + n)) end.
Proof.
  induction n; intros m cur H; cbn [until1].
  - destruct (ngt (df m) (Fin (-1))); reflexivity.
  - rewrite H by lia. cbv zeta. rewrite <- ys_st.
    change (feed (ys m)) with (st (S m)). change (nabs (ys m - pv m)%num) with (df (S m)). change (ys m) with (pv (S m)) at 1.
    rewrite IHn by (intros; apply H; lia). destruct n; [rewrite Nat.add_0_r; reflexivity|].
    f_equal. f_equal. lia.
Qed.
Lemma until1_runs n cur : ngt d0 (Fin (-1)) = true -> (forall k, k < n -> isnan (df k) = false) ->
  until1 next feed (Fin (-1)) n s0 p0 d0 cur = match n with O => cur | S n => Some (ys n) end.
Proof.
  intros D H. etransitivity; [apply (until1_from n 0 cur)|destruct n; reflexivity].
  intros [|k] K; [exact D|]. cbn [df]. apply nabs_above. specialize (H (S k) ltac:(lia)). cbn [df] in H. rewrite nabs_nan in H. exact H.
Qed.
End Sequence.

(** ** The loop over arrays *)
Section Loop.
Variable sh : option nat.
Hypothesis some_place : sh <> Some 0.
Variables next feed : nums -> M nums.
Variables nx fd : nat -> num -> num.
Variable L : list (option nat).
Hypothesis next_den : forall a v, stretches (shape a) sh -> den sh (value_of a) v -> den sh (next a) (fun i => nx i (v i)).
Hypothesis feed_den : forall a v, stretches (shape a) sh -> den sh (value_of a) v -> den sh (feed a) (fun i => fd i (v i)).
Hypothesis next_uses : forall a, uses (next a) L.
Variable tol : num.
Variables s0 p0 d0 : nat -> num.
Let y i m := ys (nx i) (fd i) (s0 i) m.
Let d i m := df (nx i) (fd i) (s0 i) (p0 i) (d0 i) m.
Let goes m := (forall i, inside sh i -> isnan (d i m) = false) /\ exists i, inside sh i /\ ngt (d i m) tol = true.

Lemma den_stretches {A} (a : arr A) v : den sh (ret a) v -> stretches (shape a) sh.
Proof. intros (r & E & S & _). injection E as <-. exact S. Qed.

Lemma loop_places todo : forall m state prev diff cur,
  den sh (value_of state) (fun i => st (nx i) (fd i) (s0 i) m) ->
  den sh (value_of prev) (fun i => pv (nx i) (fd i) (s0 i) (p0 i) m) ->
  den sh (value_of diff) (fun i => d i m) ->
  exists n c, m <= n <= m + todo /\ value (until_settled next feed tol todo state prev diff cur) = Ok c
  /\ (n = m -> c = cur)
  /\ (m < n -> exists r, c = Some r /\ den sh (value_of r) (fun i => y i (n - 1)) /\ Forall (fun s => stretches s (shape r)) L)
  /\ (forall k, m <= k < n -> goes k) /\ (n = m + todo \/ ~ goes n).
Proof.
  induction todo; intros m state prev diff cur Ds Dp Dd.
  - destruct (greatest_places sh diff _ tol some_place Dd) as (g & Eg & G).
    exists m, cur. split; [lia|]. split; [|split; [auto|split; [lia|split; [intros; lia|left; lia]]]].
    cbn [until_settled]. rewrite value_bind, Eg. destruct (ngt g tol); reflexivity.
  - destruct (greatest_places sh diff _ tol some_place Dd) as (g & Eg & G).
    destruct (ngt g tol) eqn:Gt.
    + assert (Gm : goes m) by (apply G; reflexivity).
      destruct (next_den state _ (den_stretches _ _ Ds) Ds) as (y1 & Ey & Sy & Vy). change (arr num) with nums in y1.
      assert (Dy : den sh (value_of y1) (fun i => y i m)).
      { exists y1. split; [reflexivity|]. split; [exact Sy|]. intros i I. rewrite Vy by exact I. unfold y. rewrite ys_st. reflexivity. }
      destruct (feed_den y1 _ Sy Dy) as (s1 & Es & Ss & Vs). change (arr num) with nums in s1.
      assert (Ds1 : den sh (value_of s1) (fun i => st (nx i) (fd i) (s0 i) (S m))).
      { exists s1. split; [reflexivity|]. split; [exact Ss|]. intros i I. rewrite Vs by exact I. reflexivity. }
      assert (Dd0 : den sh (aabs (y1 - prev)%arr) (fun i => d i (S m))).
      { unfold aabs, op1, op2. refine (den_lift1 sh nabs _ _ (den_lift2 sh nsub _ _ _ _ Dy Dp)). }
      destruct Dd0 as (d1 & Ed & Sd & Vd). change (arr num) with nums in d1.
      assert (Dd1 : den sh (value_of d1) (fun i => d i (S m))) by (exists d1; auto).
      destruct (IHtodo (S m) s1 y1 d1 (Some y1) Ds1 Dy Dd1) as (n & c & Ln & Ec & C0 & C1 & Go & St).
      exists n, c. split; [lia|]. split; [|split; [lia|split; [|split]]].
      * cbn [until_settled]. rewrite value_bind, Eg, Gt.
        etransitivity; [apply (value_bind_ok (next state) _ y1 Ey)|]. cbv beta.
        etransitivity; [apply (value_bind_ok (feed y1) _ s1 Es)|]. cbv beta.
        etransitivity; [apply (value_bind_ok (aabs (y1 - prev)%arr) _ d1 Ed)|]. exact Ec.
      * intros _. destruct (Nat.eq_dec n (S m)) as [->|Ne].
        -- exists y1. split; [rewrite C0; auto|]. replace (S m - 1) with m by lia. split; [exact Dy|]. apply (next_uses state). exact Ey.
        -- apply C1. lia.
      * intros k K. destruct (Nat.eq_dec k m) as [->|Ne]; [exact Gm|]. apply Go. lia.
      * destruct St as [->|St]; [left; lia|right; exact St].
    + exists m, cur. split; [lia|]. split; [|split; [auto|split; [lia|split; [intros; lia|]]]].
      * cbn [until_settled]. rewrite value_bind, Eg, Gt. reflexivity.
      * right. intros Gm. apply G in Gm. discriminate.
Qed.

(** The scalar results after n iterations, as long as none of the changes is NaN. *)
Variable x : nat -> nat -> res num.
Hypothesis start : forall i, inside sh i -> d0 i = PInf.
Hypothesis scalar : forall i n, inside sh i -> 1 <= n -> (forall k, k < n -> isnan (d i k) = false) -> x i n = Ok (y i (n - 1)).

Lemma change_df i m : inside sh i -> (forall k, k < m -> isnan (d i k) = false) -> change p0 x i m = d i m.
Proof.
  intros I H. destruct m as [|[|m]].
  - cbn. rewrite start by exact I. reflexivity.
  - cbn [change]. rewrite (scalar i 1) by (auto; lia). reflexivity.
  - change (change p0 x i (S (S m))) with (apart (x i (S (S m))) (x i (S m))).
    rewrite (scalar i (S (S m))), (scalar i (S m)); auto; try lia; try (intros; apply H; lia).
    replace (S (S m) - 1) with (S m) by lia. replace (S m - 1) with m by lia. reflexivity.
Qed.
Lemma goes_on_goes m : (forall k, k < m -> goes k) -> (goes_on sh tol p0 x m <-> goes m).
Proof.
  intros H. assert (C : forall i, inside sh i -> change p0 x i m = d i m).
  { intros i I. apply change_df; [exact I|]. intros k K. apply (proj1 (H k K)). exact I. }
  unfold goes_on, goes. split; intros (F & i & I & G).
  - split; [intros j J; rewrite <- C by exact J; auto|]. exists i. rewrite <- C by exact I. auto.
  - split; [intros j J; rewrite C by exact J; auto|]. exists i. rewrite C by exact I. auto.
Qed.

Lemma loop_settles max_iter state prev diff cur :
  1 <= max_iter -> ngt PInf tol = true ->
  den sh (value_of state) s0 -> den sh (value_of prev) p0 -> den sh (value_of diff) d0 ->
  exists n r, settles sh max_iter tol p0 x n /\ value (until_settled next feed tol max_iter state prev diff cur) = Ok (Some r)
  /\ den sh (value_of r) (fun i => y i (n - 1)) /\ Forall (fun s => stretches s (shape r)) L
  /\ forall i k, inside sh i -> k < n -> isnan (d i k) = false.
Proof.
  intros M T Ds Dp Dd.
  destruct (loop_places max_iter 0 state prev diff cur Ds Dp Dd) as (n & c & Ln & Ec & C0 & C1 & Go & St).
  assert (G0 : goes 0).
  { assert (E : forall i, inside sh i -> d i 0 = PInf) by (intros i I; cbn; auto). split.
    - intros i I. rewrite E by exact I. reflexivity.
    - exists 0. assert (I : inside sh 0) by (destruct sh as [[|k]|]; cbn; congruence || lia || exact Logic.I). split; [exact I|]. rewrite E by exact I. exact T. }
  assert (N1 : 1 <= n).
  { destruct n; [|lia]. destruct St as [St|St]; [lia|]. contradiction. }
  destruct (C1 ltac:(lia)) as (r & -> & Dr & Ur).
  exists n, r. split; [|split; [exact Ec|split; [exact Dr|split; [exact Ur|]]]].
  - split; [lia|]. split.
    + intros m Lm. apply goes_on_goes; [|apply Go; lia]. intros k Kk. apply Go. lia.
    + destruct St as [->|St]; [left; lia|]. right. intros H. apply St. apply goes_on_goes; [|exact H]. intros k Kk. apply Go. lia.
  - intros i k I Kk. apply (proj1 (Go k ltac:(lia))). exact I.
Qed.

(** What the call does after the loop keeps the result. *)
Lemma together_loop call max_iter args state prev diff cur :
  1 <= max_iter -> ngt PInf tol = true ->
  common args sh -> incl (map shape args) L ->
  den sh (value_of state) s0 -> den sh (value_of prev) p0 -> den sh (value_of diff) d0 ->
  (forall r, value (until_settled next feed tol max_iter state prev diff cur) = Ok (Some r) -> stretches (shape r) sh -> value call = Ok r) ->
  together sh max_iter tol p0 call x.
Proof.
  intros M T (Fa & Ca) U Ds Dp Dd K.
  destruct (loop_settles max_iter state prev diff cur M T Ds Dp Dd) as (n & r & St & Ec & (q & Eq & Sq & Vq) & Ur & Nn). injection Eq as <-.
  exists n, r. split; [exact St|]. split; [apply K; auto|split].
  - apply stretches_antisym; [exact Sq|]. destruct Ca as [->|Ca]; [apply stretches_none|].
    apply Exists_exists in Ca as (a & I & <-). rewrite Forall_forall in Ur. apply Ur. apply U. apply in_map. exact I.
  - intros i I. rewrite scalar; [|exact I|apply St|].
    + unfold place. rewrite Vq by exact I. reflexivity.
    + intros k Kk. apply Nn; assumption.
Qed.
End Loop.

(** With an empty array the loop asks for the greatest entry of an empty array. *)
Lemma loop_empty next feed tol max_iter args (state prev : nums) L cur v w :
  den (Some 0) (next state) v -> (forall a, stretches (shape a) (Some 0) -> exists s, value (feed a) = Ok s) ->
  uses (next state) L -> den (Some 0) (value_of prev) w ->
  1 <= max_iter -> ngt PInf tol = true ->
  common args (Some 0) -> incl (map shape args) L ->
  value (until_settled next feed tol max_iter state prev (Sc PInf) cur) = Err ValueError.
Proof.
  intros (y & Ey & Sy & Vy) Fe U Dp M T (_ & C) Inc. change (arr num) with nums in y.
  assert (Zy : shape y = Some 0).
  { apply stretches_antisym; [exact Sy|]. destruct C as [C|C]; [discriminate|].
    apply Exists_exists in C as (a & I & <-). specialize (U y Ey). rewrite Forall_forall in U. apply U. apply Inc. apply in_map. exact I. }
  assert (Dy : den (Some 0) (value_of y) v) by (exists y; auto).
  destruct (den_lift1 _ nabs _ _ (den_lift2 _ nsub _ _ _ _ Dy Dp)) as (d & Ed & Sd & _). change (arr num) with nums in d.
  assert (Ud : uses (aabs (y - prev)%arr) [shape y]).
  { unfold aabs, op1, op2. eapply uses_incl; [uses_tac|]. intros s [<-|[]]. cbn. auto. }
  specialize (Ud d Ed). inversion Ud as [|? ? Hd _]; subst. rewrite Zy in Hd.
  pose proof (stretches_antisym _ _ Sd Hd) as Zd. destruct (Fe y Sy) as (s & Es).
  destruct max_iter as [|todo]; [lia|]. cbn [until_settled]. rewrite value_bind. cbn [greatest entries fold_left value snd ret]. rewrite T.
  etransitivity; [apply (value_bind_ok _ _ y Ey)|]. cbv beta.
  etransitivity; [apply (value_bind_ok _ _ s Es)|]. cbv beta.
  etransitivity; [apply (value_bind_ok _ _ d Ed)|]. cbv beta.
  destruct d as [?|[|? ?]]; try discriminate. destruct todo; reflexivity.
Qed.

(** ** Names for the values of assignments *)
Lemma den_name sh (e : M nums) v L : den sh e v -> uses e L ->
  exists r : nums, value e = Ok r /\ stretches (shape r) sh /\ den sh (value_of r) v /\ Forall (fun s => stretches s (shape r)) L.
Proof. intros (r & E & S & V) U. exists r. split; [exact E|]. split; [exact S|]. split; [exists r; auto|]. apply U. exact E. Qed.

(** [d] is the stone size the call works with; it depends on the arguments [args]. *)
Definition stone_size (sh : option nat) (Dn50 M50 rho d : nums) (args : list nums) : Prop :=
  value (ArrCore.check_usage_Dn50_or_M50 Dn50 M50 rho) = Ok d
  /\ (forall i, inside sh i -> CorePhysics.check_usage_Dn50_or_M50 (place i Dn50) (place i M50) (place i rho) = ret (place i d))
  /\ stretches (shape d) sh /\ Forall (fun s => stretches s (shape d)) (map shape args).

Lemma stone_size_given sh Dn50 M50 rho : filled Dn50 -> stretches (shape Dn50) sh -> stone_size sh Dn50 M50 rho Dn50 [Dn50].
Proof.
  intros F S. split; [rewrite usage_given by exact F; reflexivity|]. split; [|split; [exact S|constructor; [apply stretches_refl|constructor]]].
  intros i I. apply (usage_given_at Dn50 M50 rho sh i _ _ F S I).
Qed.
Lemma stone_size_missing sh Dn50 M50 rho : missing Dn50 -> filled M50 -> filled rho -> stretches (shape M50) sh -> stretches (shape rho) sh ->
  exists d, stone_size sh Dn50 M50 rho d [M50; rho].
Proof.
  intros Fd Fm Fr Sm Sr.
  destruct (den_name sh (ArrCore.calculate_Dn50_from_M50 M50 rho) (fun i => CorePhysics.calculate_Dn50_from_M50 (place i M50) (place i rho)) (map shape [M50; rho])) as (d & E & S & D & U).
  - autounfold with arrays. eapply den_ext; [den_tac|intros; reflexivity].
  - autounfold with arrays. eapply uses_incl; [uses_tac|incl_tac].
  - exists d. split; [rewrite usage_missing by assumption; exact E|]. split; [|auto].
    intros i I. rewrite (usage_missing_at Dn50 M50 rho sh i) by assumption. f_equal.
    destruct D as (q & Eq & Sq & Vq). injection Eq as <-. unfold place. rewrite Vq by exact I. reflexivity.
Qed.

(** Shapes below the shape of an intermediate value *)
Lemma below L (d : nums) sh : Forall (fun s => stretches s (shape d)) L -> stretches (shape d) sh -> Forall (fun s => stretches s sh) L.
Proof. intros F S. eapply Forall_impl; [|exact F]. intros s H. exact (stretches_trans _ _ _ H S). Qed.

(** Names for the values of assignments: [name e v D] computes e. *)
Tactic Notation "name" constr(sh) constr(e) constr(v) constr(L) ident(D) :=
  let E := fresh "E" D in let S := fresh "S" D in let DD := fresh "D" D in let U := fresh "U" D in
  destruct (den_name sh e v L) as (D & E & S & DD & U);
  [unfold float; autounfold with arrays; eapply den_ext; [den_tac|intros; reflexivity]
  |unfold float; autounfold with arrays; eapply uses_incl; [uses_tac|incl_tac]|cbn [map] in U].
Lemma place_den sh (a : nums) v i : den sh (value_of a) v -> inside sh i -> place i a = v i.
Proof. intros (r & E & S & V) I. injection E as <-. unfold place. rewrite V by exact I. reflexivity. Qed.

(** A place whose first result is NaN stops the iterations for all places. *)
Lemma together_nan sh max_iter tol before call x i0 :
  together sh max_iter tol before call x -> inside sh i0 -> isnan (change before x i0 1) = true ->
  exists r, value call = Ok r /\ shape r = sh /\ forall i, inside sh i -> x i 1 = Ok (place i r).
Proof.
  intros (n & r & (L & G & _) & E & S & P) I N. exists r. split; [exact E|]. split; [exact S|].
  destruct n as [|[|n]]; [lia|exact P|]. destruct (G 1 ltac:(lia)) as (F & _). rewrite F in N by exact I. discriminate.
Qed.
