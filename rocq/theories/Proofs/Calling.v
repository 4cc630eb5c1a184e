(** Facts on the binding of arguments. *)
From Coq Require Import String List Bool Arith Lia QArith.
From Verif.Model Require Import Calling.
From Verif.Spec Require Import Calling.
Import ListNotations.

Lemma mem_iff {A : Type} n (l : list (string * A)) : mem n l = true <-> In n (map fst l).
Proof.
  unfold mem. rewrite existsb_exists, in_map_iff. split.
  - intros (x & I & E). apply String.eqb_eq in E. exists x. auto.
  - intros (x & E & I). exists x. split; [assumption|]. apply String.eqb_eq. auto.
Qed.
Lemma mem_false {A : Type} n (l : list (string * A)) : mem n l = false <-> ~ In n (map fst l).
Proof. rewrite <- mem_iff. destruct (mem n l); split; congruence || tauto. Qed.

Lemma lookup_none {A : Type} n (l : list (string * A)) : lookup n l = None <-> ~ In n (map fst l).
Proof.
  induction l as [|[m v] l IH]; cbn; [tauto|]. destruct (String.eqb_spec n m) as [->|N]; [split; [discriminate|tauto]|].
  rewrite IH. split; [intros H [E|I]; [congruence|tauto]|tauto].
Qed.
Lemma lookup_in {A : Type} n v (l : list (string * A)) : lookup n l = Some v -> In (n, v) l.
Proof.
  induction l as [|[m w] l IH]; cbn; [discriminate|]. destruct (String.eqb_spec n m) as [->|N]; [intros E; injection E as ->; auto|auto].
Qed.
Lemma lookup_iff {A : Type} n v (l : list (string * A)) : NoDup (map fst l) -> lookup n l = Some v <-> In (n, v) l.
Proof.
  intros N. split; [apply lookup_in|]. induction l as [|[m w] l IH]; cbn; [tauto|]. inversion N as [|? ? N1 N2]; subst.
  intros [E|I]; [injection E as -> ->; rewrite String.eqb_refl; reflexivity|]. destruct (String.eqb_spec n m) as [->|]; [|auto].
  destruct N1. change m with (fst (m, v)). apply in_map. assumption.
Qed.

Section Bind.
Variables (V : Type) (meaning : literal -> V).

Lemma fill_iff : forall ps pos kw vs, NoDup (map fst kw) ->
  fill V meaning ps pos kw = Some vs <->
  (length pos <= length ps /\ length vs = length ps
   /\ forall i n d v, nth_error ps i = Some (n, d) -> nth_error vs i = Some v -> receives literal V meaning pos kw i n d v)%nat.
Proof.
  induction ps as [|[n d] ps IH]; intros pos kw vs N.
  - destruct pos; cbn; [|split; [discriminate|lia]]. split.
    + intros E. injection E as <-. split; [lia|]. split; [reflexivity|]. intros [|i]; discriminate.
    + intros (_ & L & _). destruct vs; [reflexivity|discriminate].
  - assert (SH : forall p pos', (forall i m e v, receives literal V meaning (p :: pos') kw (S i) m e v <-> receives literal V meaning pos' kw i m e v)) by (intros; reflexivity).
    assert (SN : forall i m e v, receives literal V meaning [] kw (S i) m e v <-> receives literal V meaning [] kw i m e v).
    { intros i m e v. unfold receives. destruct i; reflexivity. }
    assert (TAIL : forall a pos', (length pos' <= length ps)%nat ->
       (forall i m e v, receives literal V meaning pos kw (S i) m e v <-> receives literal V meaning pos' kw i m e v) ->
       (receives literal V meaning pos kw 0 n d a) ->
       (forall a', receives literal V meaning pos kw 0 n d a' -> a' = a) ->
       (length pos <= S (length ps))%nat ->
       option_map (cons a) (fill V meaning ps pos' kw) = Some vs <->
       (length pos <= S (length ps) /\ length vs = S (length ps) /\ forall i m e v, nth_error ((n, d) :: ps) i = Some (m, e) -> nth_error vs i = Some v -> receives literal V meaning pos kw i m e v)%nat).
    { intros a pos' L' Sh R0 U L. split.
      - destruct (fill V meaning ps pos' kw) as [ws|] eqn:E; [|discriminate]. intros Q. injection Q as <-. apply IH in E; [|assumption]. destruct E as (_ & E2 & E3).
        split; [assumption|]. split; [cbn; congruence|]. intros [|i] m e v H1 H2.
        + injection H1 as <- <-. injection H2 as <-. assumption.
        + apply Sh. apply E3; assumption.
      - intros (_ & E2 & E3). destruct vs as [|w ws]; [discriminate|]. specialize (U w (E3 0%nat n d w eq_refl eq_refl)). subst w.
        assert (E : fill V meaning ps pos' kw = Some ws); [|rewrite E; reflexivity].
        apply IH; [assumption|]. split; [assumption|]. split; [cbn in E2; congruence|]. intros i m e v H1 H2. apply Sh. apply (E3 (S i)); assumption. }
    destruct pos as [|p pos']; cbn [fill].
    + destruct (lookup n kw) as [a|] eqn:E.
      * apply TAIL; [cbn; lia|exact SN| | |cbn; lia].
        -- right. left. split; [reflexivity|]. apply lookup_in. assumption.
        -- intros a' [[C _]|[[_ I]|[_ [I _]]]]; [discriminate| |].
           ++ apply lookup_iff in I; [congruence|assumption].
           ++ apply lookup_none in I. congruence.
      * destruct d as [l|].
        -- apply TAIL; [cbn; lia|exact SN| | |cbn; lia].
           ++ right. right. split; [reflexivity|]. split; [apply lookup_none; assumption|]. eauto.
           ++ intros a' [[C _]|[[_ I]|[_ [_ (l' & El & ->)]]]]; [discriminate| |].
              ** apply lookup_iff in I; [congruence|assumption].
              ** injection El as <-. reflexivity.
        -- split; [discriminate|]. intros (_ & L & R). destruct vs as [|w ws]; [discriminate|].
           destruct (R 0%nat n None w eq_refl eq_refl) as [[C _]|[[_ I]|[_ [_ (l' & El & _)]]]]; [discriminate| |discriminate].
           apply lookup_iff in I; [congruence|assumption].
    + destruct (mem n kw) eqn:E.
      * split; [discriminate|]. apply mem_iff in E. intros (_ & L & R). destruct vs as [|w ws]; [discriminate|].
        destruct (R 0%nat n d w eq_refl eq_refl) as [[_ C]|[[C _]|[C _]]]; [contradiction|discriminate|discriminate].
      * apply mem_false in E. destruct (le_dec (length pos') (length ps)) as [L|L].
        -- apply TAIL; [assumption|apply SH| | |cbn; lia].
           ++ left. split; [reflexivity|assumption].
           ++ intros a' [[C _]|[[C _]|[C _]]]; [injection C as <-; reflexivity|discriminate|discriminate].
        -- split; [|cbn; lia]. destruct (fill V meaning ps pos' kw) as [ws|] eqn:F; [|discriminate]. apply IH in F; [|assumption]. lia.
Qed.

Lemma keywords_known ps (kw : list (string * V)) :
  forallb (fun k => mem (fst k) ps) kw = true <-> forall k, In k (map fst kw) -> In k (map (@fst string (option literal)) ps).
Proof.
  rewrite forallb_forall. split.
  - intros H k I. apply in_map_iff in I. destruct I as (x & <- & I). apply mem_iff. apply H. assumption.
  - intros H x I. apply mem_iff. apply H. apply in_map. assumption.
Qed.

(** A keyword no remaining parameter has does not matter. *)
Lemma fill_other : forall ps pos kw p v, ~ In p (map fst ps) -> fill V meaning ps pos ((p, v) :: kw) = fill V meaning ps pos kw.
Proof.
  induction ps as [|[n d] ps IH]; intros pos kw p v H; [reflexivity|]. cbn in H. destruct (String.eqb_spec n p) as [->|N]; [tauto|].
  apply String.eqb_neq in N. destruct pos as [|a pos]; cbn; rewrite N; cbn; rewrite IH by tauto; reflexivity.
Qed.

Lemma fill_default : forall ps pos kw p l, NoDup (map fst ps) -> In (p, Some l) ps -> left_out literal V ps pos kw p ->
  fill V meaning ps pos ((p, meaning l) :: kw) = fill V meaning ps pos kw.
Proof.
  induction ps as [|[n d] ps IH]; intros pos kw p l ND I [LO1 LO2]; [reflexivity|]. inversion ND as [|? ? N1 N2]; subst.
  destruct pos as [|a pos].
  - cbn. destruct (String.eqb_spec n p) as [->|N].
    + rewrite (proj2 (lookup_none p kw) LO1). destruct I as [E|I]; [injection E as ->|destruct N1; change p with (fst (p, Some l)); apply in_map; assumption].
      rewrite fill_other by assumption. reflexivity.
    + destruct I as [E|I]; [congruence|]. rewrite (IH [] kw p l) by (assumption || (split; [assumption|intros []])). reflexivity.
  - cbn in LO2. destruct I as [E|I]; [injection E as -> ->; tauto|]. cbn. destruct (String.eqb_spec n p) as [->|N]; [tauto|]. cbn.
    fold (mem n kw). rewrite (IH pos kw p l) by (assumption || (split; [assumption|tauto])). reflexivity.
Qed.

(** Positional arguments are the keywords of the parameters in order. *)
Lemma fill_positional : forall ps pos kw p d v, NoDup (map fst ps) -> nth_error ps (length pos) = Some (p, d) -> ~ In p (map fst kw) ->
  fill V meaning ps (pos ++ [v]) kw = fill V meaning ps pos ((p, v) :: kw).
Proof.
  induction ps as [|[n e] ps IH]; intros pos kw p d v ND E H; [destruct pos; discriminate|]. inversion ND as [|? ? N1 N2]; subst.
  destruct pos as [|a pos]; cbn in E |- *.
  - injection E as -> ->. rewrite String.eqb_refl. fold (mem p kw). rewrite (proj2 (mem_false p kw) H). rewrite fill_other by assumption. reflexivity.
  - assert (I : In p (map fst ps)) by (apply nth_error_In in E; change p with (fst (p, d)); apply in_map; assumption).
    destruct (String.eqb_spec n p) as [->|N]; [contradiction|]. cbn. fold (mem n kw). rewrite (IH pos kw p d v) by assumption. reflexivity.
Qed.
End Bind.

(** Equality of literals as a test. *)
Definition Q_same (a b : Q) : bool := (Qnum a =? Qnum b)%Z && (Qden a =? Qden b)%positive.
Definition same (a b : literal) : bool :=
  match a, b with
  | Number p, Number q => Q_same p q
  | Power a b, Power c d => Q_same a c && Q_same b d
  | Missing, Missing | Infinite, Infinite | Nothing, Nothing => true
  | Flag a, Flag b => Bool.eqb a b
  | Text a, Text b => String.eqb a b
  | _, _ => false
  end.
Lemma Q_same_eq a b : Q_same a b = true -> a = b.
Proof. destruct a, b. unfold Q_same. cbn. rewrite andb_true_iff, Z.eqb_eq, Pos.eqb_eq. intros [-> ->]. reflexivity. Qed.
Lemma same_eq a b : same a b = true -> a = b.
Proof.
  destruct a, b; cbn; try discriminate; try reflexivity; intros E.
  - rewrite (Q_same_eq _ _ E). reflexivity.
  - apply andb_true_iff in E. destruct E as [E1 E2]. rewrite (Q_same_eq _ _ E1), (Q_same_eq _ _ E2). reflexivity.
  - apply eqb_prop in E. congruence.
  - apply String.eqb_eq in E. congruence.
Qed.
