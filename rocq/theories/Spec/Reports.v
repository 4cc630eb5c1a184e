(** The warnings called for by a list of validity ranges whose values and bounds
    may be infinite, and whose values may be missing (NaN). *)
From Coq Require Import String List.
From Verif.Lib Require Import Num Monad.
From Verif.Spec Require Import Ranges.
Import ListNotations.

Record xrange := XRange
  { x_name : string; x_formula : string; x_value : num; x_lo : num; x_hi : num }.

(** One warning for each value outside its range, in order; a missing value is
    never outside. *)
Inductive reported : list xrange -> list warning -> Prop :=
| reported_nil : reported [] []
| reported_in n f v lo hi rs ws :
    ~ out_of_range v lo hi -> reported rs ws -> reported (XRange n f v lo hi :: rs) ws
| reported_out n f v lo hi rs ws :
    out_of_range v lo hi -> reported rs ws ->
    reported (XRange n f v lo hi :: rs) (WRange n f v lo hi :: ws).

(** A call that yields a result, with the warnings of ranges that may depend on
    that result. *)
Definition reports_of (m : M num) (ranges : num -> list xrange) : Prop :=
  exists x, value m = Ok x /\ reported (ranges x) (warns m).
