(** Mean overtopping discharge: the published relations between the discharge
    [q] (per metre of crest) and the freeboard [Rc]. *)
From Coq Require Import Reals.
Open Scope R_scope.

(** The unit in which discharges are made dimensionless. *)
Definition q_unit (g H : R) : R := sqrt (g * H ^ 3).

(** De Ridder et al. (2024), eqs. 24 and 26.  [s] is the steepness of the short
    waves, [HLF] the height of the long waves, [gf] the roughness factor. *)
Definition deridder24_eq24 (g H s gf Rc q : R) : Prop :=
  q / q_unit g H = 0.74 * exp (- (8.51 * Rpower s 0.32 * (Rc / (H * gf)))).
Definition deridder24_eq26 (g H s HLF gf Rc q : R) : Prop :=
  q / q_unit g H = 0.5 * exp (- (7.91 * Rpower s 0.3 * ((Rc - 0.21 * HLF) / (H * gf)))).

(** De Ridder et al. (2026), eqs. 28 and 32, with the factor for waves under an
    angle of [theta] degrees. *)
Definition deridder26_gamma (theta : R) : R := 0.35 + 0.65 * cos (theta * PI / 180) ^ 2.
Definition deridder26_eq28 (g H s gf gb Rc q : R) : Prop :=
  q / q_unit g H = 0.16 * exp (- (6.93 * Rpower s 0.36 * (Rc / (H * gf * gb)))).
Definition deridder26_eq32 (g H s HLF gf gb Rc q : R) : Prop :=
  q / q_unit g H = 0.05 * exp (- (10.4 * sqrt s * ((Rc - 0.97 * HLF) / (H * gf * gb)))).

(** Van Gent (2021), vertical caissons.  The coefficients (a, b, c_beta,
    gamma_p) fitted for exponent [c], for waves of several directions (short
    crested, or wind sea with a crossing swell) or of one direction, and with or
    without a parapet.  No fit exists for long-crested waves and a parapet. *)
Inductive caisson_fitted : bool -> bool -> R -> R -> R -> R -> R -> Prop :=
| fit_multi_1 : caisson_fitted true false 1 0.2 3.9 0.75 1
| fit_multi_parapet_1 : caisson_fitted true true 1 0.2 3.9 0.75 0.89
| fit_single_1 : caisson_fitted false false 1 0.2 4 0.8 1
| fit_multi_13 : caisson_fitted true false 1.3 0.047 2.57 0.70 1
| fit_multi_parapet_13 : caisson_fitted true true 1.3 0.047 2.57 0.70 0.85
| fit_single_13 : caisson_fitted false false 1.3 0.047 2.7 0.8 1.

(** Factor for waves under an angle of [beta] degrees. *)
Definition caisson_gamma (cb gp beta : R) : R :=
  (1 - cb / gp) * cos (beta * PI / 180) ^ 2 + cb / gp.

(** [y] is [x] to the power [c], one of the two exponents; the power 1.3 exists
    for a freeboard above the swell only. *)
Inductive to_power (x y : R) : R -> Prop :=
| power_1 : y = x -> to_power x y 1
| power_13 : 0 < x -> y = Rpower x 1.3 -> to_power x y 1.3
| power_13_0 : x = 0 -> y = 0 -> to_power x y 1.3.

(** The discharge over a freeboard [Rc], of which the swell takes [rise]. *)
Definition caisson_relation (g H a b c gb gp rise Rc q : R) : Prop :=
  exists y, to_power ((Rc - rise) / H) y c
    /\ q / q_unit g H = a * exp (- (b / (gb * gp) * y)).

(** Van Gent et al. (2025), eqs. B1 and B2.  [x] is the freeboard above the
    swell, relative to the wave height, [gam] the product of the influence
    factors; the discharge is relative to [q_unit]. *)
Definition vg25_general (cot ksi gam x : R) : R := 6.8 / cot * exp (- (5 * x / (gam * ksi))).
Definition vg25_maximum (cot ksi gam x : R) : R := 0.8 / cot * exp (- (2.5 * x / (gam * Rpower ksi 0.24))).
Definition vg25_discharge (cot ksi gam x : R) : R :=
  Rmin (vg25_general cot ksi gam x) (vg25_maximum cot ksi gam x).

(** The factors: rough slopes, oblique waves, a crest wall, a berm, wind. *)
Definition vg25_rough (D H : R) : R := 1 - 0.7 * Rpower (D / H) 0.05.
Definition vg25_gamma_beta (beta : R) : R := 0.65 * cos (beta * PI / 180) ^ 2 + 0.35.
Definition vg25_gamma_w (x a Q : R) : R := 1 + 0.075 * (x - a) * Rpower Q (- (0.3)).
