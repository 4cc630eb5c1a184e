(** Model of functions/hydraulic/wave_overtopping/denbieman2021.py: the input file of
    the XGBoost model for overtopping. *)
From Coq Require Import String List Bool.
From Verif.Lib Require Import Num Monad.
From Verif.Model Require Import Pandas.
Import ListNotations.
Open Scope string_scope.

(** denbieman2021.py:9-111: what is in the file afterwards, given what was in it
    before, and how the call ended. *)
Definition write_input_file_XGB_Overtopping
    (beta h Hm0 Tmm10 Bt ht B_berm db Rc Ac Gc cot_alpha_down cot_alpha_up gamma_f_down gamma_f_up tan_alpha_f : arg)
    (before : list line) : list line * res unit :=
  let index := if is_float beta then Some 1 else None in
  match DataFrame
          [ ("b", beta); ("h", h); ("Hm0 toe", Hm0); ("Tm-1,0 toe", Tmm10); ("ht", ht); ("Bt", Bt);
            ("hb", db); ("B", B_berm); ("Rc", Rc); ("Ac", Ac); ("Gc", Gc); ("cotad", cot_alpha_down);
            ("cotau", cot_alpha_up); ("gf_d", gamma_f_down); ("gf_u", gamma_f_up); ("tanaf", tan_alpha_f) ] index with
  | Ok input_dataframe => (to_csv input_dataframe ";" true true, Ok tt)
  | Err e => (before, Err e)
  end.
