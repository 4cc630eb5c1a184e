(** Numpy float64 scalars, idealised.

    A scalar is an exact real or one of the IEEE special values.  The
    operations follow numpy's float64 rules for special values, division by
    zero, negative bases of powers and so on.  Not modelled: rounding,
    overflow/underflow, the sign of zero (zero is always +0). *)
From Coq Require Import Reals ZArith Bool List Lra.
Open Scope R_scope.

Inductive num : Type :=
| Fin (r : R)
| PInf
| NInf
| NaN.

Declare Scope num_scope.
Delimit Scope num_scope with num.
Bind Scope num_scope with num.

Notation "# r" := (Fin r%R) (at level 1, r at level 0, format "# r") : num_scope.
Open Scope num_scope.

(** ** Decidable comparisons of reals *)
Definition Rltb (a b : R) : bool := if Rlt_dec a b then true else false.
Definition Rleb (a b : R) : bool := if Rle_dec a b then true else false.
Definition Reqb (a b : R) : bool := if Req_EM_T a b then true else false.

(** A real that is a whole number: the test IEEE pow makes on its exponent. *)
Definition is_int (y : R) : bool := Reqb y (IZR (Int_part y)).

(** ** Comparisons: every comparison with NaN is false. *)
Definition nlt (x y : num) : bool :=
  match x, y with
  | NaN, _ | _, NaN => false
  | Fin a, Fin b => Rltb a b
  | NInf, NInf => false
  | NInf, _ => true
  | _, NInf => false
  | PInf, _ => false
  | Fin _, PInf => true
  end.

Definition neqb (x y : num) : bool :=
  match x, y with
  | Fin a, Fin b => Reqb a b
  | PInf, PInf => true
  | NInf, NInf => true
  | _, _ => false
  end.

Definition nle (x y : num) : bool := nlt x y || neqb x y.
Definition ngt (x y : num) : bool := nlt y x.
Definition nge (x y : num) : bool := nle y x.

Definition isnan (x : num) : bool := match x with NaN => true | _ => false end.

(** ** Arithmetic *)
Definition nneg (x : num) : num :=
  match x with Fin a => Fin (- a) | PInf => NInf | NInf => PInf | NaN => NaN end.

Definition nadd (x y : num) : num :=
  match x, y with
  | NaN, _ | _, NaN => NaN
  | Fin a, Fin b => Fin (a + b)
  | PInf, NInf | NInf, PInf => NaN
  | PInf, _ | _, PInf => PInf
  | NInf, _ | _, NInf => NInf
  end.

Definition nsub (x y : num) : num := nadd x (nneg y).

(** [inf_sign pos a]: an infinity whose sign is that of [pos] times [a];
    infinity times zero is NaN. *)
Definition inf_mul (pos : bool) (a : R) : num :=
  if Reqb a 0 then NaN
  else if Bool.eqb pos (Rltb 0 a) then PInf else NInf.

Definition nmul (x y : num) : num :=
  match x, y with
  | NaN, _ | _, NaN => NaN
  | Fin a, Fin b => Fin (a * b)
  | Fin a, PInf | PInf, Fin a => inf_mul true a
  | Fin a, NInf | NInf, Fin a => inf_mul false a
  | PInf, PInf | NInf, NInf => PInf
  | PInf, NInf | NInf, PInf => NInf
  end.

Definition ndiv (x y : num) : num :=
  match x, y with
  | NaN, _ | _, NaN => NaN
  | Fin a, Fin b =>
      if Reqb b 0 then
        (if Reqb a 0 then NaN else if Rltb 0 a then PInf else NInf)
      else Fin (a / b)
  | Fin _, (PInf | NInf) => Fin 0
  | (PInf | NInf), (PInf | NInf) => NaN
  | PInf, Fin b => if Rltb b 0 then NInf else PInf
  | NInf, Fin b => if Rltb b 0 then PInf else NInf
  end.

Definition nabs (x : num) : num :=
  match x with Fin a => Fin (Rabs a) | PInf | NInf => PInf | NaN => NaN end.

Definition nsqrt (x : num) : num :=
  match x with
  | Fin a => if Rltb a 0 then NaN else Fin (sqrt a)
  | PInf => PInf
  | _ => NaN
  end.

Definition nexp (x : num) : num :=
  match x with Fin a => Fin (exp a) | PInf => PInf | NInf => Fin 0 | NaN => NaN end.

Definition nlog (x : num) : num :=
  match x with
  | Fin a => if Rltb 0 a then Fin (ln a) else if Reqb a 0 then NInf else NaN
  | PInf => PInf
  | _ => NaN
  end.

Definition ncos (x : num) : num := match x with Fin a => Fin (cos a) | _ => NaN end.
Definition nsin (x : num) : num := match x with Fin a => Fin (sin a) | _ => NaN end.
Definition ncosh (x : num) : num :=
  match x with Fin a => Fin (cosh a) | PInf | NInf => PInf | NaN => NaN end.
Definition nsinh (x : num) : num :=
  match x with Fin a => Fin (sinh a) | PInf => PInf | NInf => NInf | NaN => NaN end.
Definition ntanh (x : num) : num :=
  match x with Fin a => Fin (tanh a) | PInf => Fin 1 | NInf => Fin (-1) | NaN => NaN end.
Definition natan (x : num) : num :=
  match x with Fin a => Fin (atan a) | PInf => Fin (PI / 2) | NInf => Fin (- (PI / 2)) | NaN => NaN end.

(** np.power / [**] on float64 scalars. *)
Definition npow (x y : num) : num :=
  match x, y with
  | Fin a, Fin b =>
      if Rltb 0 a then Fin (Rpower a b)
      else if Reqb a 0 then
        (if Reqb b 0 then Fin 1 else if Rltb 0 b then Fin 0 else PInf)
      else if is_int b then Fin (powerRZ a (Int_part b)) else NaN
  | Fin a, PInf =>
      if Reqb a 1 then Fin 1
      else if Rltb (Rabs a) 1 then Fin 0
      else if Rltb 1 (Rabs a) then PInf else Fin 1
  | Fin a, NInf =>
      if Reqb a 1 then Fin 1
      else if Rltb (Rabs a) 1 then PInf
      else if Rltb 1 (Rabs a) then Fin 0 else Fin 1
  | Fin a, NaN => if Reqb a 1 then Fin 1 else NaN
  | PInf, Fin b => if Reqb b 0 then Fin 1 else if Rltb 0 b then PInf else Fin 0
  | NInf, Fin b =>
      if Reqb b 0 then Fin 1
      else if Rltb 0 b then
        (if is_int b && Z.odd (Int_part b) then NInf else PInf)
      else Fin 0
  | NaN, Fin b => if Reqb b 0 then Fin 1 else NaN
  | (PInf | NInf), PInf => PInf
  | (PInf | NInf), NInf => Fin 0
  | (PInf | NInf), NaN => NaN
  | NaN, _ => NaN
  end.

(** np.minimum / np.maximum / np.min / np.max: NaN propagates. *)
Definition nmin (x y : num) : num :=
  if isnan x || isnan y then NaN else if nlt y x then y else x.
Definition nmax (x y : num) : num :=
  if isnan x || isnan y then NaN else if nlt x y then y else x.

(** np.floor, np.ceil and np.round (round half to even). *)
Definition Rfloor (a : R) : R := IZR (Int_part a).
Definition Rround (a : R) : R :=
  let n := Int_part a in
  let f := (a - IZR n)%R in
  if Rltb f (1 / 2) then IZR n
  else if Rltb (1 / 2) f then IZR (n + 1)
  else if Z.even n then IZR n else IZR (n + 1).

Definition nfloor (x : num) : num := match x with Fin a => Fin (Rfloor a) | _ => x end.
Definition nround (x : num) : num := match x with Fin a => Fin (Rround a) | _ => x end.

Infix "+" := nadd : num_scope.
Infix "-" := nsub : num_scope.
Infix "*" := nmul : num_scope.
Infix "/" := ndiv : num_scope.
Notation "- x" := (nneg x) : num_scope.
Notation "x <? y" := (nlt x y) : num_scope.
Notation "x <=? y" := (nle x y) : num_scope.
Notation "x >? y" := (ngt x y) (at level 70) : num_scope.
Notation "x >=? y" := (nge x y) (at level 70) : num_scope.
Notation "x =? y" := (neqb x y) : num_scope.

(** np.pi *)
Definition npi : num := Fin PI.

(** The value is a number, i.e. neither NaN nor infinite. *)
Definition finite (x : num) : Prop := exists r, x = Fin r.
