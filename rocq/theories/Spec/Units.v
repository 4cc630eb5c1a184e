(** Published properties of concrete units. *)
From Coq Require Import Reals String List.
Import ListNotations.
Open Scope string_scope.
Open Scope R_scope.

(** Stability coefficients KD, from the mildest situation to the harshest one:
    Rock Manual (2007), page 591 (Accropode, Core-loc, cubes, tetrapods),
    the tables of Concrete Layer Innovations (Accropode II), the Cubipod manual
    and the Xbloc guidelines.  The names are those used in the code. *)
Definition accropode_KD : list (string * R) :=
  [("trunk_non_breaking", 15); ("trunk_breaking", 12); ("head_non_breaking", 11.5); ("head_breaking", 9.5)].
Definition accropode2_KD : list (string * R) :=
  [("trunk_nonbreaking", 16); ("trunk_breaking_max", 16); ("trunk_breaking_min", 9)].
Definition core_loc_KD : list (string * R) := [("trunk", 16); ("head", 13)].
Definition cubes_KD : list (string * R) :=
  [("double_layer_trunk_non_breaking", 7.5); ("double_layer_trunk_breaking", 6.5);
   ("double_layer_head_non_breaking", 5)].
Definition cubipod_KD : list (string * R) :=
  [("trunk_double_layer", 28); ("trunk_single_layer", 12); ("head_double_layer", 7); ("head_single_layer", 5)].
Definition tetrapod_KD : list (string * R) :=
  [("trunk_non_breaking", 8); ("trunk_breaking", 7); ("head_non_breaking", 5.5); ("head_breaking", 4.5)].
Definition xbloc_KD : list (string * R) := [("trunk_breaking", 16); ("head_breaking", 13)].
Definition xblocplus_KD : list (string * R) := [("trunk_breaking", 12)].

(** Layer coefficient, thickness of a layer in nominal diameters, in the order
    Accropode, Accropode II, Core-loc, cubes in two layers, Cubipod, tetrapod,
    Xbloc, XblocPlus. *)
Definition layer_coefficients : list R := [1.29; 1.52; 1.516; 1.10; 1; 1.02; 1.40; 1.33].
(** Cubes in two layers: porosity and spacing in nominal diameters. *)
Definition cubes_geometry : list (string * R) := [("nv", 0.47); ("Delta_x_fact_Dn", 1.7); ("Delta_y_fact_Dn", 0.85)].
