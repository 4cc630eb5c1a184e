(** Model of functions/core_utility.py *)
From Coq Require Import String List Bool.
From Verif.Lib Require Import Num Monad.
Import ListNotations.

(** A python argument that may be an int, a float or a one-dimensional array
    (a list is treated like an array). *)
Inductive pyval : Type :=
| PyInt (x : num)
| PyFloat (x : num)
| PyArr (l : list num).

(** core_utility.py:42-52, the loop over [values]. *)
Fixpoint check_values (variable_name formula_name : string) (values : list num)
    (min_value max_value : num) : M (list bool) :=
  match values with
  | [] => ret []
  | value :: rest =>
      if (value <? min_value) || (value >? max_value) then
        warn (WRange variable_name formula_name value min_value max_value) ;;
        r <- check_values variable_name formula_name rest min_value max_value ;;
        ret (false :: r)
      else
        r <- check_values variable_name formula_name rest min_value max_value ;;
        ret (true :: r)
  end.

(** core_utility.py:7-54, check_variable_validity_range. *)
Definition check_variable_validity_range (variable_name formula_name : string)
    (values : pyval) (min_value max_value : num) : M (list bool) :=
  match values with
  | PyArr l => check_values variable_name formula_name l min_value max_value
  | PyInt x | PyFloat x => check_values variable_name formula_name [x] min_value max_value
  end.

(** The call as it appears in the formula modules for scalar arguments, where
    the returned list is discarded. *)
Definition check (variable_name formula_name : string) (v lo hi : num) : M unit :=
  check_variable_validity_range variable_name formula_name (PyFloat v) lo hi ;; ret tt.

(** [not np.any(np.isnan(x))], the guard of the validity checks (scalars). *)
Definition provided (x : num) : bool := negb (isnan x).
