(** How wide a caisson must be to stand with a wanted safety factor: written down
    from the balance of forces and moments on a body of width B, without reference
    to the code. *)
From Coq Require Import Reals.
Open Scope R_scope.

(** The weight of a metre of width: fill above still water, and submerged fill below it. *)
Definition column (hacc Rc below above rho g : R) : R := (hacc * (below - rho) + Rc * above) * g.

(** A triangular uplift that starts at [pu] takes pu / 2 from each metre of weight, and the friction mu on what
    is left must carry s times the horizontal force. *)
Definition sliding_width (s FH mu w pu : R) : R := s * FH / (mu * (w - pu / 2)).

(** The weight acts at the fraction [frac] of the width, the uplift at two thirds of it. *)
Definition overturning_width (s MH frac w pu : R) : R := sqrt (s * MH / (frac * w - pu / 3)).
