(** Model of functions/hydraulic/wave_overtopping/vangent2007.py: the input file of
    the neural network for overtopping. *)
From Coq Require Import String List Bool.
From Verif.Lib Require Import Num Monad.
From Verif.Model Require Import Pandas.
Import ListNotations.
Open Scope string_scope.

(** vangent2007.py:82-124, without the ends of the lines. *)
Definition header (file_name : string) : list string :=
  [ "!-------------------------------------------------------------------------------------------";
    "! Begin input file";
    "! " ++ file_name ++ ".inp";
    "! This is a comment record";
    "! ===============================";
    "! COLUMN#01  Angle of Wave attack";
    "! COLUMN#02  Water depth in front of structure";
    "! COLUMN#03  Significant Wave Height at the toe of structure";
    "! COLUMN#04  Wave period";
    "! COLUMN#05  Water depth at the toe of structure";
    "! COLUMN#06  Width of toe";
    "! COLUMN#07  Roughness coefficient";
    "! COLUMN#08  Angle of down slope";
    "! COLUMN#09  Angle of upper slope";
    "! COLUMN#10  Crest Freeboard in relation to SWL";
    "! COLUMN#11  Berm Width";
    "! COLUMN#12  Water depth at the berm of the structure";
    "! COLUMN#13  Berm slope";
    "! COLUMN#14  Armour Freeboard in relation to SWL";
    "! COLUMN#15  Armour Width";
    "! ===============================";
    "! and this is another comment record";
    "* as well as this one, and the next five ones";
    "!--------------------------------------------------------------------------------------------------------------------------";
    "!0 1   02     03        04      05       06       07      08      09      10       11       12        13     14       15   ";
    "!degr   m     toe(m)   toe(s)   m        m                                m        m        m                m        m    ";
    "!--------------------------------------------------------------------------------------------------------------------------" ].

(** vangent2007.py:9-159: what is in the file afterwards, given what was in it
    before, and how the call ended.  The file is opened for writing at line 81, and
    for appending at line 151. *)
Definition write_input_file_NN_Overtopping
    (beta h Hm0 Tmm10 Bt ht B_berm db Rc Ac Gc cot_alpha_down cot_alpha_up gamma_f tan_alpha_B : arg)
    (file_name : string) (before : list line) : list line * res unit :=
  let file := map Text (header file_name) in
  let index := if is_float beta then Some 1 else None in
  match DataFrame
          [ ("b", beta); ("h", h); ("Hm0 toe", Hm0); ("Tm-1,0 toe", Tmm10); ("ht", ht); ("Bt", Bt);
            ("gf", gamma_f); ("cotad", cot_alpha_down); ("cotau", cot_alpha_up); ("Rc", Rc);
            ("B", B_berm); ("hb", db); ("tanaB", tan_alpha_B); ("Ac", Ac); ("Gc", Gc) ] index with
  | Ok input_dataframe => ((file ++ to_csv input_dataframe " " false false)%list, Ok tt)
  | Err e => (file, Err e)
  end.
