(** TAW (2002) and EurOtop: wave run-up and overtopping at dikes, as plain
    functions on the reals. *)
From Coq Require Import Reals.
From Verif.Lib Require Import Num.
Open Scope R_scope.

(** ** Influence factors *)

(** Waves under an angle of [beta] degrees; nothing changes beyond 80 degrees. *)
Definition taw_oblique (c beta : R) : R := 1 - c * Rmin (Rabs beta) 80.

(** A berm of width [B], [db] below still water, on a slope with run-up [z]; [L]
    is the length over which the berm counts. *)
Inductive berm_position (H z db : R) : R -> Prop :=
| berm_out_of_reach : 2 * H < db \/ db < - z -> berm_position H z db 1
| berm_below : 0 <= db <= 2 * H -> - z <= db -> berm_position H z db (0.5 - 0.5 * cos (PI * db / (2 * H)))
| berm_above : - z <= db < 0 -> db <= 2 * H -> berm_position H z db (0.5 - 0.5 * cos (PI * db / z)).
Definition taw_berm (B L r : R) : R := Rmax 0.6 (Rmin 1 (1 - B / L * (1 - r))).

(** Roughness matters less for long waves on steep slopes. *)
Definition taw_roughness (gf gb xi : R) : R :=
  if Rle_dec 1.8 (gb * xi) then if Rle_dec (gb * xi) 10 then gf + (1 - gf) * ((xi - 1.8) / 8.2) else gf else gf.

(** ** Run-up, relative to the wave height *)
Definition taw_slope_runup (c1 gb f gbeta xi : R) : R := c1 * gb * f * gbeta * xi.
Definition taw_max_runup (c2 c3 c4 f gbeta xi : R) : R := c4 * f * gbeta * (c2 - c3 / sqrt xi).
Definition taw_runup (c1 c2 c3 c4 gb gf gbeta xi : R) : R :=
  let f := taw_roughness gf gb xi in
  Rmin (taw_slope_runup c1 gb f gbeta xi) (taw_max_runup c2 c3 c4 f gbeta xi).

(** The average slope between 1.5 [H] below and [z] above still water, berm
    excluded: horizontal over vertical distance. *)
Definition average_cot (H z cd cu db : R) : R := ((1.5 * H - db) * cd + (z + db) * cu) / (1.5 * H + z).

(** ** Iteration
    [n] steps from [a] to [b], each of which moves by more than the tolerance. *)
Section Iteration.
Variables (step settled : num -> num -> Prop).
Inductive moves : nat -> num -> num -> Prop :=
| moves_0 a : moves 0 a a
| moves_S n a b c : step a b -> ~ settled a b -> moves n b c -> moves (S n) a c.
End Iteration.

(** ** Influence of a berm
    Twice: the run-up without the berm gives a first factor, the run-up with that
    factor the final one.  [runup] is the run-up as a function of the factor. *)
Inductive berm_procedure (runup : R -> R) (H B L db : R) : R -> Prop :=
| no_berm : B = 0 \/ L = 0 -> berm_procedure runup H B L db 1
| two_steps r1 r2 : B <> 0 -> L <> 0 -> berm_position H (runup 1) db r1 -> berm_position H (runup (taw_berm B L r1)) db r2 ->
    berm_procedure runup H B L db (taw_berm B L r2).

(** ** Overtopping
    The discharge relative to sqrt(g H^3) over a freeboard of [r] wave heights, on
    a slope with tangent [tan], and its maximum. *)
Definition taw_q_slope (c1 tan gb f gbeta gv xi r : R) : R :=
  0.067 / sqrt tan * gb * xi * exp (- (c1 * r / (xi * gb * f * gbeta * gv))).
Definition taw_q_max (c3 f gbeta r : R) : R := 0.2 * exp (- (c3 * r / (f * gbeta))).
Definition taw_q (c1 c3 tan gb gf gbeta gv xi r : R) : R :=
  let f := taw_roughness gf gb xi in
  Rmin (taw_q_slope c1 tan gb f gbeta gv xi r) (taw_q_max c3 f gbeta r).

(** Coefficients for a design, and for the best fit with [sigma] standard
    deviations of safety. *)
Inductive taw_coefficients : bool -> R -> R -> R -> Prop :=
| taw_design : taw_coefficients false 0 4.3 2.3
| taw_best_fit sigma : taw_coefficients true sigma (4.75 + 0.5 * sigma) (2.6 + 0.35 * sigma).

(** A factor is given, or else it is calculated. *)
Inductive known_or (calculated : R -> Prop) : num -> R -> Prop :=
| known x : known_or calculated (Fin x) x
| unknown x : calculated x -> known_or calculated NaN x.

(** The factor of a wall on the crest at [a] degrees. *)
Definition taw_wall (a : R) : R := if Rle_dec a 45 then 1 else 1.35 - 0.0078 * a.

(** ** EurOtop (2018)
    Oblique waves: a smooth slope has a roughness factor above 0.6. *)
Definition eurotop_oblique (smooth gf beta : R) : R :=
  taw_oblique (if Rlt_dec 0.6 gf then smooth else 0.0063) beta.

(** Discharges fall off with the power 1.3 of the freeboard, for a crest above
    still water. *)
Definition pow13 (x : R) : R := if Rlt_dec 0 x then Rpower x 1.3 else 0.
Definition eurotop_q_slope (c1 c4 tan gb f gbeta gv xi r : R) : R :=
  c4 / sqrt tan * gb * xi * exp (- pow13 (c1 * r / (xi * gb * f * gbeta * gv))).
Definition eurotop_q_max (c2 c3 f gbeta gs r : R) : R := c2 * exp (- pow13 (c3 * r / (f * gbeta * gs))).

(** The coefficients of the caller, or those of the best fit. *)
Inductive eurotop_coefficients (c1 c2 c3 c4 : R) : bool -> R -> R -> R -> R -> Prop :=
| eurotop_design : eurotop_coefficients c1 c2 c3 c4 false c1 c2 c3 c4
| eurotop_best_fit : eurotop_coefficients c1 c2 c3 c4 true 2.7 0.09 1.5 0.023.

(** ** EurOtop (2007), rubble mounds *)
Inductive eurotop07_coefficients (c2 c3 : R) : bool -> R -> R -> Prop :=
| eurotop07_design : eurotop07_coefficients c2 c3 false c2 c3
| eurotop07_best_fit : eurotop07_coefficients c2 c3 true 0.2 2.6.
