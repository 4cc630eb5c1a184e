(** The linear dispersion relation, which the external routine disper solves. *)
From Coq Require Import Reals.
Open Scope R_scope.

(** Angular frequency w, depth h, gravity g, wave number k. *)
Definition dispersion (w h g k : R) : Prop := w ^ 2 = g * k * tanh (k * h).
