(** What a validity-range report is, independently of the code. *)
From Coq Require Import Reals String List.
From Verif.Lib Require Import Num Monad.
Import ListNotations.

(** Strict order of extended reals; NaN is unrelated to everything. *)
Definition below (x y : num) : Prop :=
  match x, y with
  | Fin a, Fin b => (a < b)%R
  | NInf, Fin _ | NInf, PInf | Fin _, PInf => True
  | _, _ => False
  end.

Definition out_of_range (v lo hi : num) : Prop := below v lo \/ below hi v.

(** [report name formula lo hi vs bs ws]: [bs] judges every value of [vs] in
    order, and [ws] has one warning for each value judged out of range. *)
Inductive report (name formula : string) (lo hi : num)
  : list num -> list bool -> list warning -> Prop :=
| report_nil : report name formula lo hi [] [] []
| report_in v vs bs ws :
    ~ out_of_range v lo hi -> report name formula lo hi vs bs ws ->
    report name formula lo hi (v :: vs) (true :: bs) ws
| report_out v vs bs ws :
    out_of_range v lo hi -> report name formula lo hi vs bs ws ->
    report name formula lo hi (v :: vs) (false :: bs) (WRange name formula v lo hi :: ws).

(** A validity range of a formula, with the value of the quantity it is about,
    and the warnings such a list of ranges calls for: one per quantity outside
    its range, in order, and none for the others. *)
Record range := Range
  { r_name : string; r_formula : string; r_value : R; r_lo : R; r_hi : R }.

Inductive flagged : list range -> list warning -> Prop :=
| flagged_nil : flagged [] []
| flagged_in n f v lo hi rs ws :
    (lo <= v <= hi)%R -> flagged rs ws -> flagged (Range n f v lo hi :: rs) ws
| flagged_out n f v lo hi rs ws :
    (v < lo \/ hi < v)%R -> flagged rs ws ->
    flagged (Range n f v lo hi :: rs) (WRange n f (Fin v) (Fin lo) (Fin hi) :: ws).
