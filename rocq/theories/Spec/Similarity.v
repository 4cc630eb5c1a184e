(** Similarity: the same structure and the same waves on another length scale [l] (Froude's
    law, so that times go with the square root of lengths, and gravity stays what it is)
    and with all densities multiplied by [d]. *)
From Coq Require Import Reals.
From Verif.Lib Require Import Num Monad.
Open Scope R_scope.

(** Special values do not scale. *)
Definition scaled (k : R) (x : num) : num := match x with Fin a => Fin (k * a) | _ => x end.

Section Scales.
Variables l d : R.
Definition distance (x : num) : num := scaled l x.
Definition time (x : num) : num := scaled (sqrt l) x.
Definition velocity (x : num) : num := scaled (sqrt l) x.
(** Volume per unit of time and of length along the structure *)
Definition discharge (x : num) : num := scaled (l * sqrt l) x.
Definition volume (x : num) : num := scaled (l ^ 3) x.
Definition density (x : num) : num := scaled d x.
Definition mass (x : num) : num := scaled (d * l ^ 3) x.
(** Pressure, and force and moment per unit of length along the structure *)
Definition pressure (x : num) : num := scaled (d * l) x.
Definition force (x : num) : num := scaled (d * l ^ 2) x.
Definition moment (x : num) : num := scaled (d * l ^ 3) x.
End Scales.

(** A result without dimension *)
Definition same {A} (x : A) : A := x.
(** Several results *)
Definition both {A B} (f : A -> A) (g : B -> B) (x : A * B) : A * B := (f (fst x), g (snd x)).
Infix "&" := both (at level 45, left associativity).

(** The call [m'] on the other scale ends as [m] does: with the same warnings and the same
    exception, or with its result on that scale. *)
Definition similar {A} (scale : A -> A) (m' m : M A) : Prop := m' = (x <- m ;; ret (scale x)).

(** The same, apart from the warnings. *)
Definition similar_value {A} (scale : A -> A) (m' m : M A) : Prop := value m' = value (x <- m ;; ret (scale x)).
(** The same, the warnings only if the densities are unchanged: formulas that warn about
    the density itself. *)
Definition similar_upto_density (d : R) {A} (scale : A -> A) (m' m : M A) : Prop :=
  (d = 1 -> similar scale m' m) /\ similar_value scale m' m.

(** A single slope: the slopes below and above the berm are not both given. *)
Definition straight (cd cu : num) : Prop := isnan cd = true \/ isnan cu = true.
