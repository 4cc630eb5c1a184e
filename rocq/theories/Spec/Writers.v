(** The input files of the neural network (van Gent et al., 2007) and of the
    XGBoost model (den Bieman et al., 2021) for overtopping: what is in which
    column. *)
From Coq Require Import String List.
From Verif.Lib Require Import Num.
Import ListNotations.
Open Scope string_scope.

Record nn_case : Type := NN {
  nn_beta : num; nn_h : num; nn_Hm0 : num; nn_Tmm10 : num; nn_Bt : num; nn_ht : num; nn_B : num; nn_db : num;
  nn_Rc : num; nn_Ac : num; nn_Gc : num; nn_cot_down : num; nn_cot_up : num; nn_gf : num; nn_tan_B : num }.

Definition nn_columns : list (string * (nn_case -> num)) :=
  [ ("! COLUMN#01  Angle of Wave attack", nn_beta);
    ("! COLUMN#02  Water depth in front of structure", nn_h);
    ("! COLUMN#03  Significant Wave Height at the toe of structure", nn_Hm0);
    ("! COLUMN#04  Wave period", nn_Tmm10);
    ("! COLUMN#05  Water depth at the toe of structure", nn_ht);
    ("! COLUMN#06  Width of toe", nn_Bt);
    ("! COLUMN#07  Roughness coefficient", nn_gf);
    ("! COLUMN#08  Angle of down slope", nn_cot_down);
    ("! COLUMN#09  Angle of upper slope", nn_cot_up);
    ("! COLUMN#10  Crest Freeboard in relation to SWL", nn_Rc);
    ("! COLUMN#11  Berm Width", nn_B);
    ("! COLUMN#12  Water depth at the berm of the structure", nn_db);
    ("! COLUMN#13  Berm slope", nn_tan_B);
    ("! COLUMN#14  Armour Freeboard in relation to SWL", nn_Ac);
    ("! COLUMN#15  Armour Width", nn_Gc) ].

Record xgb_case : Type := XGB {
  x_beta : num; x_h : num; x_Hm0 : num; x_Tmm10 : num; x_Bt : num; x_ht : num; x_B : num; x_db : num;
  x_Rc : num; x_Ac : num; x_Gc : num; x_cot_down : num; x_cot_up : num; x_gf_down : num; x_gf_up : num; x_tan_f : num }.

Definition xgb_columns : list (string * (xgb_case -> num)) :=
  [ ("b", x_beta); ("h", x_h); ("Hm0 toe", x_Hm0); ("Tm-1,0 toe", x_Tmm10); ("ht", x_ht); ("Bt", x_Bt);
    ("hb", x_db); ("B", x_B); ("Rc", x_Rc); ("Ac", x_Ac); ("Gc", x_Gc); ("cotad", x_cot_down); ("cotau", x_cot_up);
    ("gf_d", x_gf_down); ("gf_u", x_gf_up); ("tanaf", x_tan_f) ].
