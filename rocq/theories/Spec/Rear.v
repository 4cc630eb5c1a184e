(** Published relations for the stability of rock on the rear side, on the reals. *)
From Coq Require Import Reals.
Open Scope R_scope.

(** ** Van Gent (2007)
    Load on the rear side: z run-up level exceeded by 1% of the waves, Rc crest
    level, [front] and [rear] the levels Rc2 of the crest element's edges, phi
    the cotangent of the rear slope. *)
Definition rear_load (z Rc front rear phi H : R) : R :=
  Rpower phi 1.25 * (z - Rc) ^ 2 * sqrt Rc * (1 + 5 * rear / (Rc - rear)) / (1 + front / H).

(** The damage formula, and the formula for the diameter as published
    separately. *)
Definition rear_damage (load N D : R) : R := 0.00025 * load * sqrt N / Rpower D 2.5.
Definition rear_diameter (load N S : R) : R := 0.036 * Rpower load 0.4 * Rpower (S / sqrt N) (-(0.4)).

(** ** Van Gent and Pozueta (2004)
    u velocity on the rear side of the crest, T period, De relative buoyant
    density, D diameter, phi cotangent of the rear slope, rear the freeboard of
    the rear side. *)
Definition pozueta (cs u T De D phi rear H N S : R) : Prop :=
  S / sqrt N = cs * (u * T / (sqrt De * D)) ^ 6 * Rpower phi (-(2.5)) * (1 + 10 * exp (- (rear / H))).
