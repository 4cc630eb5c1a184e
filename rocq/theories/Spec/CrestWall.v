(** Published loads on crest walls, on the reals: Van Gent and Van der Werf
    (2019). *)
From Coq Require Import Reals.
Open Scope R_scope.

(** Reduction of the run-up for waves at [beta] degrees. *)
Definition reduction (c beta : R) : R := (1 - c) * cos (beta * PI / 180) ^ 2 + c.

(** Horizontal force: hydrostatic head of the run-up above the armour crest [Ac]
    over a wall of height [hwall]. *)
Definition horizontal_load (c rho g hwall z Ac : R) : R := c * rho * g * hwall * (z - Ac).

(** Vertical force under a wall of width [bwall] with its base [Fb] above still
    water; the second factor is the part of the triangle below the base. *)
Definition vertical_load (c rho g bwall z Ac Fb : R) : R :=
  c * rho * g * bwall * (z - 0.75 * Ac) * (1 - sqrt (Fb / Ac)).
