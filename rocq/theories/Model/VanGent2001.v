(** Model of functions/hydraulic/wave_runup/vangent2001.py *)
From Coq Require Import Reals String List Bool.
From Verif.Lib Require Import Num Monad.
From Verif.Model Require Import CorePhysics.
Open Scope num_scope.

(** vangent2001.py:173-226 *)
Definition calculate_wave_runup_height_zXp (H Tmm10 gamma cot_alpha c0 c1 : num) : num :=
  let ksi_mm10 := calculate_Iribarren_number_ksi H Tmm10 cot_alpha in
  let p := #0.5 * c1 / c0 in
  let zXp_a := c0 * ksi_mm10 * gamma * H in
  let c2 := #0.25 * npow c1 #2 / c0 in
  let zXp_b := (c1 - c2 / ksi_mm10) * gamma * H in
  if ksi_mm10 <? p then zXp_a else zXp_b.

(** vangent2001.py:8-52 *)
Definition calculate_wave_runup_height_z1p (Hs Tmm10 gamma cot_alpha c0 c1 : num) : num :=
  calculate_wave_runup_height_zXp Hs Tmm10 gamma cot_alpha c0 c1.
(** Defaults of c0 and c1, lines 13-14. *)
Definition z1p_c0 : num := #1.45.
Definition z1p_c1 : num := #5.1.

(** vangent2001.py:55-123; NaN is the default of Hm0 and Hs.  Scalars only: for
    arrays the truth value of line 107 is ambiguous and numpy raises. *)
Definition calculate_wave_runup_height_z2p (Tmm10 gamma cot_alpha Hm0 Hs c0 c1 : num) : M num :=
  if (isnan Hm0 && isnan Hs) || (negb (isnan Hs) && negb (isnan Hm0)) then raise ValueError
  else
    let '(c0, c1, H) :=
      if isnan Hs && negb (isnan Hm0) then (#1.45, #3.8, Hm0) else (c0, c1, Hs) in
    ret (calculate_wave_runup_height_zXp H Tmm10 gamma cot_alpha c0 c1).
(** Defaults of c0 and c1, lines 61-62. *)
Definition z2p_c0 : num := #1.35.
Definition z2p_c1 : num := #4.7.

(** vangent2001.py:126-170 *)
Definition calculate_wave_runup_height_z10p (Hs Tmm10 gamma cot_alpha c0 c1 : num) : num :=
  calculate_wave_runup_height_zXp Hs Tmm10 gamma cot_alpha c0 c1.
(** Defaults of c0 and c1, lines 131-132. *)
Definition z10p_c0 : num := #1.1.
Definition z10p_c1 : num := #4.

(** vangent2001.py:229-252, _invert_for_Hs *)
Definition invert_for_Hs (Hs_i0 z1p Tmm10 gamma cot_alpha c0 c1 : num) : num :=
  let ksi_mm10 := calculate_Iribarren_number_ksi Hs_i0 Tmm10 cot_alpha in
  let p := #0.5 * c1 / c0 in
  let H_a := z1p / (c0 * ksi_mm10 * gamma) in
  let c2 := #0.25 * npow c1 #2 / c0 in
  let H_b := z1p / ((c1 - c2 / ksi_mm10) * gamma) in
  if ksi_mm10 <? p then H_a else H_b.
(** Defaults of c0 and c1, lines 235-236. *)
Definition invert_c0 : num := #1.45.
Definition invert_c1 : num := #5.1.
