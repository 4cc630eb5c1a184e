(** Proving that a function is steady or makes a step, from the continuity of the
    expressions it is made of. *)
From Coq Require Import Reals Lra.
From Verif.Lib Require Import Num RTac.
From Verif.Spec Require Import Steps.
Open Scope R_scope.

Lemma cont_near g x : continuity_pt g x -> forall e, 0 < e -> exists d, 0 < d /\ forall y, Rabs (y - x) < d -> Rabs (g y - g x) < e.
Proof.
  intros C e He. destruct (C e He) as (d & Hd & G). exists d. split; [exact Hd|]. intros y Hy.
  destruct (Req_dec x y) as [->|N]; [rewrite Rminus_diag_eq, Rabs_R0 by reflexivity; exact He|].
  apply G. split; [split; [exact I|exact N]|exact Hy].
Qed.

Lemma near_cont g x : (forall e, 0 < e -> exists d, 0 < d /\ forall y, Rabs (y - x) < d -> Rabs (g y - g x) < e) -> continuity_pt g x.
Proof.
  intros C e He. destruct (C e He) as (d & Hd & G). exists d. split; [exact Hd|]. intros y (_ & Hy). apply G, Hy.
Qed.

(** [f] is [g] near [x], resp. just above and just below it. *)
Lemma steady_by f g x r : continuity_pt g x -> 0 < r -> (forall y, Rabs (y - x) < r -> f y = Fin (g y)) -> steady f x.
Proof.
  intros C Hr E. exists (g x). split. { apply E. rewrite Rminus_diag_eq, Rabs_R0 by reflexivity. exact Hr. }
  intros e He. destruct (cont_near g x C e He) as (d & Hd & G). exists (Rmin d r). split; [apply Rmin_pos; assumption|].
  intros y Hy. exists (g y). pose proof (Rmin_l d r). pose proof (Rmin_r d r). split; [apply E; lra|apply G; lra].
Qed.
Lemma above_by f g x r : continuity_pt g x -> 0 < r -> (forall y, x < y < x + r -> f y = Fin (g y)) -> just_above f x (g x).
Proof.
  intros C Hr E e He. destruct (cont_near g x C e He) as (d & Hd & G). exists (Rmin d r). split; [apply Rmin_pos; assumption|].
  intros y Hy. exists (g y). pose proof (Rmin_l d r). pose proof (Rmin_r d r). split; [apply E; lra|apply G; rewrite Rabs_right; lra].
Qed.
Lemma below_by f g x r : continuity_pt g x -> 0 < r -> (forall y, x - r < y < x -> f y = Fin (g y)) -> just_below f x (g x).
Proof.
  intros C Hr E e He. destruct (cont_near g x C e He) as (d & Hd & G). exists (Rmin d r). split; [apply Rmin_pos; assumption|].
  intros y Hy. exists (g y). pose proof (Rmin_l d r). pose proof (Rmin_r d r). split; [apply E; lra|apply G; rewrite Rabs_left; lra].
Qed.

(** Two expressions that meet at [x]. *)
Lemma steady_glue f v x : f x = Fin v -> just_below f x v -> just_above f x v -> steady f x.
Proof.
  intros E B A. exists v. split; [exact E|]. intros e He.
  destruct (B e He) as (d & Hd & G), (A e He) as (d' & Hd' & G'). exists (Rmin d d'). split; [apply Rmin_pos; assumption|].
  intros y Hy. pose proof (Rmin_l d d'). pose proof (Rmin_r d d'). apply Rabs_def2 in Hy.
  destruct (Rtotal_order y x) as [L|[->|L]]; [apply G; lra| |apply G'; lra].
  exists v. split; [exact E|]. rewrite Rminus_diag_eq, Rabs_R0 by reflexivity. exact He.
Qed.

(** A steady function makes no step. *)
Lemma steady_no_step f x b h a : steady f x -> ~ step f x b h a.
Proof.
  intros (v & E & S) (B & Eh & A & N).
  assert (K : forall l, just_below f x l \/ just_above f x l -> l = v).
  { intros l L. destruct (Req_dec l v) as [->|D]; [reflexivity|exfalso].
    assert (P : 0 < Rabs (l - v)) by (apply Rabs_pos_lt; lra). set (q := Rabs (l - v)) in *.
    destruct (S (q / 2) ltac:(lra)) as (d & Hd & G).
    assert (F : forall y w, Rabs (y - x) < d -> f y = Fin w -> Rabs (w - l) < q / 2 -> False).
    { intros y w Hy Ey Hw. destruct (G y Hy) as (w' & Ey' & Hw'). rewrite Ey in Ey'. injection Ey' as <-.
      pose proof (Rabs_triang (l - w) (w - v)) as T. replace (l - w + (w - v)) with (l - v) in T by ring. fold q in T.
      rewrite (Rabs_minus_sym l w) in T. lra. }
    destruct L as [L|L]; destruct (L (q / 2) ltac:(lra)) as (d' & Hd' & G');
      pose proof (Rmin_l d d'); pose proof (Rmin_r d d'); assert (0 < Rmin d d') by (apply Rmin_pos; assumption); set (m := Rmin d d') in *.
    - destruct (G' (x - m / 2) ltac:(lra)) as (w & Ew & Hw). apply (F _ w) in Ew; [exact Ew| |exact Hw]. rewrite Rabs_left; lra.
    - destruct (G' (x + m / 2) ltac:(lra)) as (w & Ew & Hw). apply (F _ w) in Ew; [exact Ew| |exact Hw]. rewrite Rabs_right; lra. }
  apply N. rewrite (K b), (K a) by tauto. reflexivity.
Qed.

Lemma cont_ln x : 0 < x -> continuity_pt ln x.
Proof. intros H. apply derivable_continuous_pt. exists (/ x). apply derivable_pt_lim_ln, H. Qed.
Lemma cont_power g a x : continuity_pt g x -> 0 < g x -> continuity_pt (fun y => Rpower (g y) a) x.
Proof.
  intros C P. unfold Rpower.
  apply (continuity_pt_comp (fun y => a * ln (g y)) exp x); [|apply derivable_continuous_pt, derivable_pt_exp].
  apply (continuity_pt_scal (fun y => ln (g y)) a x). apply (continuity_pt_comp g ln x); [exact C|apply cont_ln, P].
Qed.

Lemma cont_below g h x : continuity_pt g x -> continuity_pt h x -> g x < h x -> exists d, 0 < d /\ forall y, Rabs (y - x) < d -> g y < h y.
Proof.
  intros C C' L. destruct (cont_near g x C ((h x - g x) / 2) ltac:(lra)) as (d & Hd & G).
  destruct (cont_near h x C' ((h x - g x) / 2) ltac:(lra)) as (d' & Hd' & G').
  exists (Rmin d d'). split; [apply Rmin_pos; assumption|]. intros y Hy. pose proof (Rmin_l d d'). pose proof (Rmin_r d d').
  specialize (G y ltac:(lra)). specialize (G' y ltac:(lra)). apply Rabs_def2 in G, G'. lra.
Qed.
