(** Published rock-armour stability relations, on the reals. *)
From Coq Require Import Reals.
From Verif.Spec Require Import Waves.
Open Scope R_scope.

(** ** Van der Meer *)
(** Transition between plunging and surging waves. *)
Definition xi_critical (c_pl c_s P cot : R) : R :=
  Rpower (c_pl / c_s * Rpower P 0.31 * sqrt (1 / cot)) (1 / (P + 0.5)).

Definition plunging (c_pl c_s P cot xi : R) : Prop := xi < xi_critical c_pl c_s P cot \/ 4 <= cot.

(** H2/(Delta Dn50) for plunging and for surging waves; [d] is the damage
    level divided by the square root of the number of waves. *)
Definition vdm_plunging (c_pl P xi d : R) : R := c_pl * Rpower P 0.18 * Rpower d 0.2 / sqrt xi.
Definition vdm_surging (c_s P cot xi d : R) : R :=
  c_s * Rpower P (-(0.13)) * Rpower d 0.2 * sqrt cot * Rpower xi P.

(** The relation between wave height H (exceeded-by-2% height r H), diameter D
    and damage, Delta being the relative buoyant density. *)
Definition vdm (c_pl c_s P cot xi Delta D H r d : R) : Prop :=
  (plunging c_pl c_s P cot xi /\ r * H / (Delta * D) = vdm_plunging c_pl P xi d)
  \/ (~ plunging c_pl c_s P cot xi /\ r * H / (Delta * D) = vdm_surging c_s P cot xi d).

(** Van der Meer (1988): correction of sqrt N outside 1000 <= N <= 5000: the
    damage after N waves is proportional to this function. *)
Definition vdm_storm (N : R) : R :=
  if Rlt_dec N 1000 then N / sqrt 1000
  else if Rle_dec N 5000 then sqrt N
  else 1.3 * (1 - exp (-(0.00031) * N)) * sqrt 5000.

(** ** Etemad-Shahidi et al. (2020) *)
(** Permeability coefficient for armour diameter D on a core of diameter Dc. *)
Definition es_Cp (D Dc : R) : R := Rpower (1 + Rpower (Dc / D) 0.3) 0.6.
(** H/(Delta Dn50) for surging (xi >= 1.8) and plunging waves; [i] is the
    reduction for depth-limited waves. *)
Definition es_surging (N S xi i Cp : R) : R :=
  3.9 * Cp * Rpower N (-(1/10)) * Rpower S (1/6) * Rpower xi (-(1/3)) * i.
Definition es_plunging (N S xi i Cp : R) : R :=
  4.5 * Cp * Rpower N (-(1/10)) * Rpower S (1/6) * Rpower xi (-(7/12)) * i.
Definition etemad (N S xi i Delta D Dc H : R) : Prop :=
  (1.8 <= xi /\ H / (Delta * D) = es_surging N S xi i (es_Cp D Dc))
  \/ (xi < 1.8 /\ H / (Delta * D) = es_plunging N S xi i (es_Cp D Dc)).

(** ** Jumelet et al. (2024), gentle slopes *)
(** Fraction of plunging waves; [n] is a whole number nearest to [x]. *)
Definition plunging_fraction (xi : R) : R := -(1.7) * xi ^ 2 + 3.2 * xi - 0.5.
Definition nearest_whole (n : Z) (x : R) : Prop := Rabs (IZR n - x) <= 1 / 2.
(** The relation for [n] plunging waves. *)
Definition jumelet (c : R) (n : Z) (S xi Delta D H : R) : Prop :=
  H / (Delta * D) = c * Rpower S 0.2 * Rpower (IZR n) (-(0.1)) / xi.

(** ** Kramer and Burcharth (2004), low-crested structures *)
Definition kramer (Delta D Rc H : R) : Prop :=
  H / (Delta * D) = 0.06 * (Rc / D) ^ 2 - 0.23 * (Rc / D) + 1.36.

(** ** Scaravaglione et al. (2025) *)
Definition scaravaglione (c N cot s Delta D Dc S H : R) : Prop :=
  H / (Delta * D) = c * sqrt cot * Rpower s 0.1 * Rpower (S / sqrt N) 0.2 * (1 + Dc / D).
