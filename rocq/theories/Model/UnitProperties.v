(** Model of the dictionaries unit_properties at the top of the modules in
    functions/structural/stability_concrete_armour, and of their use: an entry
    read from a dictionary and passed on as KD. *)
From Coq Require Import Reals String List Bool.
From Verif.Lib Require Import Num Monad.
Import ListNotations.
Open Scope string_scope.
Open Scope num_scope.

(** A value of a dictionary: a number, None, a text, a list of numbers or a
    dictionary.  Integers are the same numbers as floats. *)
Inductive entry : Type :=
| Number (x : num)
| Nothing
| Text (text : string)
| Numbers (l : list num)
| Dict (d : list (string * entry)).

(** accropode_hudson1959.py:8-18 *)
Definition accropode_properties : entry := Dict
  [ ("KD", Dict
      [ ("trunk_non_breaking", Number #15);
        ("trunk_breaking", Number #12);
        ("head_non_breaking", Number #11.5);
        ("head_breaking", Number #9.5);
        ("Note", Text "Depending on seabed slope, see website concrete layer innovations") ]);
    ("kt", Number #1.29);
    ("nlayers", Number #1) ].
(** accropode2_hudson1959.py:8-17 *)
Definition accropode2_properties : entry := Dict
  [ ("KD", Dict
      [ ("trunk_breaking_min", Number #9);
        ("trunk_breaking_max", Number #16);
        ("trunk_nonbreaking", Number #16);
        ("Note", Text "Depending on seabed slope, see website concrete layer innovations") ]);
    ("kt", Number #1.52);
    ("nlayers", Number #1) ].
(** core_loc_hudson1959.py:8-16 *)
Definition core_loc_properties : entry := Dict
  [ ("KD", Dict
      [ ("trunk", Number #16);
        ("head", Number #13);
        ("Note", Text "Depending on seabed slope, see website concrete layer innovations") ]);
    ("kt", Number #1.516);
    ("nlayers", Number #1) ].
(** cubes_double_layer_hudson1959.py:7-19 *)
Definition cubes_properties : entry := Dict
  [ ("KD", Dict
      [ ("double_layer_trunk_non_breaking", Number #7.5);
        ("double_layer_trunk_breaking", Number #6.5);
        ("double_layer_head_non_breaking", Number #5);
        ("double_layer_head_breaking", Nothing) ]);
    ("nv", Number #0.47);
    ("kt", Number #1.10);
    ("nlayers", Number #2);
    ("Delta_x_fact_Dn", Number #1.7);
    ("Delta_y_fact_Dn", Number #0.85) ].
(** cubes_double_layer_vandermeer1988.py:8-14 *)
Definition cubes_vandermeer_properties : entry := Dict
  [ ("nv", Number #0.47);
    ("kt", Number #1.10);
    ("nlayers", Number #2);
    ("Delta_x_fact_Dn", Number #1.7);
    ("Delta_y_fact_Dn", Number #0.85) ].
(** cubes_single_layer_vangent2002.py:7-10 *)
Definition cubes_single_properties : entry := Dict
  [ ("kt", Number #1);
    ("nlayers", Number #1) ].
(** cubipod_hudson1959.py:7-16 *)
Definition cubipod_properties : entry := Dict
  [ ("KD", Dict
      [ ("trunk_double_layer", Number #28);
        ("trunk_single_layer", Number #12);
        ("head_double_layer", Number #7);
        ("head_single_layer", Number #5) ]);
    ("kt", Number #1);
    ("nlayers", Numbers [#1; #2]) ].
(** tetrapod_hudson1959.py:7-17 *)
Definition tetrapod_properties : entry := Dict
  [ ("KD", Dict
      [ ("trunk_non_breaking", Number #8);
        ("trunk_breaking", Number #7);
        ("head_non_breaking", Number #5.5);
        ("head_breaking", Number #4.5) ]);
    ("nv", Number #0.5);
    ("kt", Number #1.02);
    ("nlayers", Number #2) ].
(** xbloc.py:7-14 *)
Definition xbloc_properties : entry := Dict
  [ ("KD", Dict
      [ ("trunk_breaking", Number #16);
        ("head_breaking", Number #13) ]);
    ("kt", Number #1.40);
    ("nlayers", Number #1) ].
(** xblocplus.py:7-13 *)
Definition xblocplus_properties : entry := Dict
  [ ("KD", Dict
      [ ("trunk_breaking", Number #12) ]);
    ("kt", Number #1.33);
    ("nlayers", Number #1) ].

(** d[key] in python *)
Fixpoint find_key (d : list (string * entry)) (key : string) : M entry :=
  match d with
  | [] => raise KeyError
  | (k, e) :: d => if String.eqb k key then ret e else find_key d key
  end.
Definition get (e : entry) (key : string) : M entry :=
  match e with Dict d => find_key d key | _ => raise TypeError end.

(** unit_properties["KD"][key] *)
Definition KD_entry (properties : entry) (key : string) : M entry :=
  KD <- get properties "KD" ;; get KD key.

(** The entry used as KD in the arithmetic of hudson1959.py:58 and 105-107:
    None, a text or a dictionary times a float is a TypeError.  (A list would be
    taken as an array; no dictionary has a list below "KD".) *)
Definition as_number (e : entry) : M num :=
  match e with Number x => ret x | _ => raise TypeError end.

(** calculate_unit_mass_M(..., KD=unit_properties["KD"][key], ...) *)
Definition mass_with (mass : num -> num -> num -> num -> num -> num -> M num) (properties : entry) (key : string)
    (Hs rho_water rho_armour cot_alpha alpha_Hs : num) : M num :=
  e <- KD_entry properties key ;;
  KD <- as_number e ;;
  mass Hs rho_water rho_armour KD cot_alpha alpha_Hs.
(** calculate_wave_height_Hs(..., KD=unit_properties["KD"][key], ...) *)
Definition height_with (height : num -> num -> num -> num -> num -> num -> M num) (properties : entry) (key : string)
    (m rho_water rho_armour cot_alpha alpha_Hs : num) : M num :=
  e <- KD_entry properties key ;;
  KD <- as_number e ;;
  height m rho_water rho_armour KD cot_alpha alpha_Hs.
