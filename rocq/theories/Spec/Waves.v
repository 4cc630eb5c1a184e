(** Published definitions, as plain functions on the reals.  Nothing here
    refers to the model of the code. *)
From Coq Require Import Reals List.
Open Scope R_scope.

(** Fictitious wave steepness of a wave of height H and period T. *)
Definition steepness (g H T : R) : R := 2 * PI * H / (g * T ^ 2).

(** Iribarren number (breaker parameter) for a slope with tangent [tan_a]. *)
Definition iribarren (g H T tan_a : R) : R := tan_a / sqrt (steepness g H T).

(** The gravity the toolbox uses by default. *)
Definition g0 : R := 9.81.

(** A stone of nominal diameter D and density rho weighs rho D^3. *)
Definition mass_of (rho D : R) : R := rho * D ^ 3.

(** Relative buoyant density *)
Definition buoyant (rho_s rho_w : R) : R := rho_s / rho_w - 1.
