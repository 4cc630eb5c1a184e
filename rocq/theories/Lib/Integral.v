(** Riemann integrals of piecewise quadratic functions. *)
From Coq Require Import Reals Lra.
Open Scope R_scope.

(** [f] is integrable over [a, b] and its integral is [v]. *)
Definition integral (f : R -> R) (a b v : R) : Prop :=
  exists pr : Riemann_integrable f a b, RiemannInt pr = v.

Lemma integrable_ext f g a b : (forall x, Rmin a b <= x <= Rmax a b -> f x = g x) ->
  Riemann_integrable g a b -> Riemann_integrable f a b.
Proof.
  intros E I eps. destruct (I eps) as (phi & psi & H & L). exists phi, psi. split; [|assumption].
  intros t Ht. rewrite E by assumption. apply H. assumption.
Qed.

Lemma integral_unique f a b v w : integral f a b v -> integral f a b w -> v = w.
Proof. intros (p & <-) (q & <-). apply RiemannInt_P5. Qed.

Lemma integral_ext f g a b v : a <= b -> (forall x, a <= x <= b -> f x = g x) -> integral g a b v -> integral f a b v.
Proof.
  intros L E (pr & <-). assert (pf : Riemann_integrable f a b).
  { apply (integrable_ext f g); [|assumption]. intros x. rewrite Rmin_left, Rmax_right by assumption. apply E. }
  exists pf. apply RiemannInt_P18; [assumption|]. intros x Hx. apply E. lra.
Qed.

Lemma integral_chain f a b c v w : integral f a b v -> integral f b c w -> integral f a c (v + w).
Proof.
  intros (p & <-) (q & <-). exists (RiemannInt_P24 p q). symmetry. apply RiemannInt_P26.
Qed.

Lemma integral_quadratic c0 c1 c2 a b : a <= b ->
  integral (fun x => c0 + c1 * x + c2 * x ^ 2) a b
    (c0 * (b - a) + c1 * (b ^ 2 - a ^ 2) / 2 + c2 * (b ^ 3 - a ^ 3) / 3).
Proof.
  intros L. set (f := fun x => c0 + c1 * x + c2 * x ^ 2).
  set (F := fun x => c0 * x + c1 / 2 * x ^ 2 + c2 / 3 * x ^ 3).
  assert (D : forall x, derivable_pt_lim F x (f x)).
  { intros x. unfold F, f.
    replace (c0 + c1 * x + c2 * x ^ 2) with ((c0 * 1 + c1 / 2 * (INR 2 * x ^ 1)) + c2 / 3 * (INR 3 * x ^ 2)) by (simpl; field).
    apply (derivable_pt_lim_plus (fun x => c0 * x + c1 / 2 * x ^ 2) (fun x => c2 / 3 * x ^ 3)).
    - apply (derivable_pt_lim_plus (fun x => c0 * x) (fun x => c1 / 2 * x ^ 2)).
      + apply (derivable_pt_lim_scal id). apply derivable_pt_lim_id.
      + apply (derivable_pt_lim_scal (fun x => x ^ 2)). apply (derivable_pt_lim_pow x 2).
    - apply (derivable_pt_lim_scal (fun x => x ^ 3)). apply (derivable_pt_lim_pow x 3). }
  set (dF := (fun x => exist _ (f x) (D x)) : derivable F).
  assert (C : continuity (derive F dF)).
  { change (derive F dF) with f. unfold f. reg. }
  pose (G := mkC1 C).
  assert (pf : Riemann_integrable f a b).
  { apply continuity_implies_RiemannInt; [assumption|]. intros x _. change (derive F dF) with f in C. apply C. }
  exists pf. change (Riemann_integrable (derive G (diff0 G)) a b) in pf.
  pose proof (FTC_Riemann G pf) as E. unfold G in E. cbn [Reals.RiemannInt.c1 diff0] in E. etransitivity; [exact E|]. unfold F. field.
Qed.

Lemma integral_piece f c0 c1 c2 a b v : a <= b ->
  (forall x, a <= x <= b -> f x = c0 + c1 * x + c2 * x ^ 2) ->
  v = c0 * (b - a) + c1 * (b ^ 2 - a ^ 2) / 2 + c2 * (b ^ 3 - a ^ 3) / 3 -> integral f a b v.
Proof. intros L E ->. apply (integral_ext _ (fun x => c0 + c1 * x + c2 * x ^ 2)); auto using integral_quadratic. Qed.
