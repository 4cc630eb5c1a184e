(** Published armour-stability relations, on the reals. *)
From Coq Require Import Reals List.
Import ListNotations.
Open Scope R_scope.

(** Hudson (1959): a unit of density rho_s in water rho_w is stable under
    waves of height H when its mass is rho_s H^3 / (KD Delta^3 cot). *)
Definition hudson (rho_s rho_w KD cot H M : R) : Prop :=
  M = rho_s * H ^ 3 / (KD * (rho_s / rho_w - 1) ^ 3 * cot).

(** Damage table of the Shore Protection Manual: percentage, wave-height ratio. *)
Definition spm_rough : list (R * R) :=
  [(0, 1); (5, 1); (10, 1.08); (15, 1.14); (20, 1.20); (30, 1.29); (40, 1.41); (50, 1.54); (100, 1.54)].
Definition spm_smooth : list (R * R) :=
  [(0, 1); (5, 1); (10, 1.08); (15, 1.19); (20, 1.27); (30, 1.37); (40, 1.47); (50, 1.56); (100, 1.56)].
(** The entry of the smallest tabulated percentage strictly above p. *)
Definition next_entry (t : list (R * R)) (p f : R) : Prop :=
  exists q, In (q, f) t /\ p < q /\ forall q' f', In (q', f') t -> p < q' -> q <= q'.

(** Design curves for the stability coefficient of single-layer units as a
    function of the seabed slope in percent. *)
Definition piecewise (k0 k1 k2 s : R) : R :=
  if Rlt_dec s 1 then k0
  else if Rlt_dec s 5 then k0 + (k1 - k0) * ((s - 1) / 4)
  else if Rlt_dec s 10 then k1 + (k2 - k1) * ((s - 5) / 5)
  else k2.

(** Van der Meer (1988), double-layer cubes. *)
Definition cubes_vdm (Delta s Hs Dn N Nod : R) : Prop :=
  Hs / (Delta * Dn) = (6.7 * (Rpower Nod 0.4 / Rpower N 0.3) + 1) * Rpower s (-(0.1)).

(** Single-layer units designed by a fixed stability number Ns: a unit of
    density rho_s whose cube side is Dn = Hs / (Ns Delta), times a factor on the
    volume (1 for cubes). *)
Definition fixed_Ns (rho_s rho_w Ns factor Hs M : R) : Prop :=
  M = factor * (rho_s * (Hs / (Ns * (rho_s / rho_w - 1))) ^ 3).
