(** Wave transmission and structure-induced set-up: the published formulas. *)
From Coq Require Import Reals String.
Open Scope R_scope.

Definition clip (lo hi x : R) : R := Rmax lo (Rmin hi x).

(** D'Angremond et al. (1996), before clipping; [C] is 0.64 for permeable and
    0.80 for impermeable structures, [xi] the Iribarren number. *)
Definition dangremond (C H Rc B xi : R) : R :=
  -(0.4) * (Rc / H) + C * Rpower (B / H) (-(0.31)) * (1 - exp (-(0.5) * xi)).

(** Briganti et al. (2003): formula for wide crests, and upper limit. *)
Definition briganti_wide (H Rc B xi : R) : R :=
  -(0.35) * (Rc / H) + 0.51 * Rpower (B / H) (-(0.65)) * (1 - exp (-(0.41) * xi)).
Definition briganti_limit (H B : R) : R := 0.93 - 0.006 * (B / H).

(** Goda et al. (1967): the sine law between the two limiting freeboards
    [-(a + b)] and [a - b], for a relative freeboard [r]. *)
Definition goda_sine (a b r : R) : R := (1 - sin (PI / 2 * ((r + b) / a))) / 2.

(** Van Gent et al. (2023): c1, c4 and c5 of the five structure types. *)
Inductive breakwater : Type :=
| Impermeable | Permeable | Perforated | PerforatedScreen | PerforatedPerforatedScreen.
Definition bw_name (s : breakwater) : string :=
  match s with
  | Impermeable => "impermeable"
  | Permeable => "permeable"
  | Perforated => "perforated"
  | PerforatedScreen => "perforated_with_screen"
  | PerforatedPerforatedScreen => "perforated_with_perforated_screen"
  end.
Definition bw_swing (s : breakwater) : R :=
  match s with
  | Impermeable => 0.47 | Permeable => 0.43 | Perforated => 0.13
  | PerforatedScreen => 0.40 | PerforatedPerforatedScreen => 0.17
  end.
Definition bw_shift (s : breakwater) : R :=
  match s with Impermeable => 0 | Permeable => -(0.25) | _ => -(0.15) end.
Definition bw_middle (s : breakwater) : R :=
  match s with
  | Impermeable | Permeable | PerforatedScreen => 0.5
  | Perforated => 0.82 | PerforatedPerforatedScreen => 0.76
  end.
(** The depth, in metres, that stands for deep water. *)
Definition bottomless : R := 10 ^ 100.
(** [L] is the deep-water wavelength of the spectral period Tm-1,0. *)
Definition vangent2023 (s : breakwater) (H Rc B L : R) : R :=
  bw_middle s - bw_swing s * tanh (Rc / H + 3.1 * Rpower (B / L) 0.75 + bw_shift s).

(** Van Gent (2024): set-up relative to the wave height; [s] is the steepness. *)
Definition setup_impermeable (s H Rc : R) : R :=
  0.34 * Rpower s 0.4 * Rpower (Rc / H + 1.6) 3.5.
Definition setup_permeable (s H Rc hc : R) : R :=
  0.22 * Rpower s 0.2 * Rpower (hc / H) (-(0.7)) * Rpower (Rc / H + 1.5) 1.5.
