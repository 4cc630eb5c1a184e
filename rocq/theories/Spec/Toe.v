(** Published toe-stability relations, on the reals. *)
From Coq Require Import Reals.
Open Scope R_scope.

(** Gerding (1993): Hs/(Delta Dn50) = (0.24 ht/Dn50 + 1.6) Nod^0.15 *)
Definition gerding (Delta Hs ht Dn50 Nod : R) : Prop :=
  Hs / (Delta * Dn50) = (0.24 * (ht / Dn50) + 1.6) * Rpower Nod 0.15.

(** Van der Meer (1998): Hs/(Delta Dn50) = (6.2 (ht/h)^2.7 + 2) Nod^0.15 *)
Definition vandermeer1998 (Delta Hs ht h Dn50 Nod : R) : Prop :=
  Hs / (Delta * Dn50) = (6.2 * Rpower (ht / h) 2.7 + 2) * Rpower Nod 0.15.

(** Etemad-Shahidi et al. (2021):
    Ns = 1.2 + 11.2 (ht/h)^(7/4) s^(1/6) Nod^(2/5) (Bt/Hs)^(-1/10) (1 - 3.7 m) *)
Definition etemad2021_Ns (s Hs h ht Bt m Nod : R) : R :=
  1.2 + 11.2 * Rpower (ht / h) (7 / 4) * Rpower s (1 / 6) * Rpower Nod (2 / 5)
        * Rpower (Bt / Hs) (- (1 / 10)) * (1 - 3.7 * m).
Definition etemad2021 (Delta s Hs h ht Bt m Dn50 Nod : R) : Prop :=
  Hs / (Delta * Dn50) = etemad2021_Ns s Hs h ht Bt m Nod.

(** Van Gent & Van der Werf (2014):
    Nod = 0.032 (tt/Hs) (Bt/Hs)^0.3 (Hs/(Delta Dn50))^3 (u_delta/sqrt(g Hs)),
    u_delta = (pi Hs/T) / sinh(k ht), k the deep-water wave number. *)
Definition vgvdw_velocity (g Hs T ht : R) : R :=
  PI * Hs / T / sinh (4 * PI ^ 2 / (g * T ^ 2) * ht).
Definition vgvdw_Nod (Delta g Hs T ht Bt tt Dn50 : R) : R :=
  0.032 * (tt / Hs) * Rpower (Bt / Hs) 0.3 * (Hs / (Delta * Dn50)) ^ 3
  * (vgvdw_velocity g Hs T ht / sqrt (g * Hs)).

(** Takahashi et al. (1990), for wave number k and angle of incidence theta
    (radians). *)
Definition takahashi_kappa (k h B theta : R) : R :=
  (2 * k * h) / sinh (2 * k * h)
  * Rmax (0.45 * sin theta ^ 2 * cos (k * B * cos theta) ^ 2)
         (cos theta ^ 2 * sin (k * B * cos theta) ^ 2).
Definition takahashi_Ns (kappa h Hs : R) : R :=
  Rmax 1.8 (1.3 * ((1 - kappa) / Rpower kappa (1 / 3)) * (h / Hs)
            + 1.8 * exp (- (1.5 * ((1 - kappa) ^ 2 / Rpower kappa (1 / 3)) * (h / Hs)))).
