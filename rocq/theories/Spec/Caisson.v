(** Wave loads on a caisson after Goda (2000), on real numbers.

    Heights are measured from still water, positive upwards; the wall reaches
    from [- hacc] to [Rc].  [k] is the wave number at the depth [h]. *)
From Coq Require Import Reals.
Open Scope R_scope.

(** The waves are turned by at most 15 degrees towards the normal. *)
Definition goda_angle (beta : R) : R := Rmax (Rabs beta - 15) 0.
Definition goda_cos (beta : R) : R := cos (goda_angle beta * PI / 180).
Definition goda_eta (beta HD : R) : R := 0.75 * (1 + goda_cos beta) * HD.

Definition goda_alpha1 (k h : R) : R := 0.6 + 0.5 * (2 * k * h / sinh (2 * k * h)) ^ 2.
Definition goda_alpha2 (hb d HD : R) : R := Rmin ((hb - d) / (3 * hb) * (HD / d) ^ 2) (2 * d / HD).
Definition goda_alpha3 (k h hacc : R) : R := 1 - hacc / h * (1 - 1 / cosh (k * h)).

Definition goda_p1 (beta a1 a2 rho g HD : R) : R :=
  0.5 * (1 + goda_cos beta) * (a1 + a2 * goda_cos beta ^ 2) * rho * g * HD.
Definition goda_pu (beta a1 a3 rho g HD : R) : R :=
  0.5 * (1 + goda_cos beta) * a1 * a3 * rho * g * HD.

(** The pressure on the wall: linear from [p3] at the base to [p1] at still
    water and on to zero at the height [eta]. *)
Definition goda_diagram (p1 p3 hacc eta z : R) : R :=
  if Rle_dec z 0 then p1 + (p1 - p3) * (z / hacc) else Rmax 0 (p1 * (1 - z / eta)).

(** The uplift, at the distance [x] from the heel of a base of width [B]. *)
Definition goda_uplift (pu B x : R) : R := pu * (x / B).

(** The reaction of the foundation: linear from [pe] at the heel with slope
    [m], as far as it is compressive. *)
Definition bearing (pe m x : R) : R := Rmax 0 (pe + m * x).

(** Conditions for impulsive breaking; [L] is the wave length. *)
Definition impulsive_1 (beta B1 L cot s Rc Hsi : R) : Prop :=
  beta < 20 /\ B1 / L < 0.02 /\ cot < 50 /\ s < 0.03 /\ 0.3 < Rc / Hsi.
Definition impulsive_2 (beta B1 L Rc Hsi d h : R) : Prop :=
  beta < 20 /\ 0.02 < B1 / L < 0.3 /\ d / h < 0.6 /\ 0.3 < Rc / Hsi.

(** The submerged weight of the caisson. *)
Definition caisson_weight (hacc Rc B below above rho g : R) : R :=
  g * B * (hacc * (below - rho) + Rc * above).
