(** Published run-up relations, on the reals. *)
From Coq Require Import Reals.
Open Scope R_scope.

(** ** Van Gent (2001)
    Relative run-up z / (gamma H) as a function of the surf-similarity
    parameter: linear up to p = c1/(2 c0), hyperbolic beyond. *)
Definition vangent_curve (c0 c1 xi : R) : R :=
  if Rlt_dec xi (c1 / (2 * c0)) then c0 * xi else c1 - c1 ^ 2 / (4 * c0) / xi.

(** ** Van Gent (2002)
    Front velocity exceeded by the same waves that exceed run-up level z, on a
    crest of height Rc at distance B from the seaward edge. *)
Definition crest_velocity (cu1 cu2 g H z Rc B gf gc : R) : R :=
  cu1 * sqrt (g * gc / gf) * sqrt (z - Rc) / (1 + cu2 * B / H).
