(** Calls whose numbers can have a larger shape than their flags. *)
From Coq Require Import Reals List.
From Verif.Lib Require Import Num Monad Arr.
From Verif.Spec Require Import Arrays ArrayFlags.
Import ListNotations.

(** The influence factor is one number; when that is NaN, it is calculated from the
    [others].  [used] are the arguments that count. *)
Definition factor_from (factor : nums) (others used : list nums) : Prop :=
  exists x, one_number factor x /\ ((isnan x = false /\ used = [factor]) \/ (isnan x = true /\ used = others)).

(** Without a roughness factor the stone size is known, as one number. *)
Definition stone_known (gamma_f Dn50 : nums) : Prop :=
  (exists x, one_number gamma_f x /\ isnan x = false) \/ (exists d, one_number Dn50 d /\ isnan d = false).

(** The call works place by place.  The flags have the common shape of [args], the
    numbers that of [args] and [more]; the arguments [checked] only have to be
    compatible with the others.  When [args] and [more] are not compatible, the call
    is a ValueError. *)
Definition flagged_wider (args more checked : list nums) (call : M (nums * arr bool))
    (scalar : (nums -> num) -> res (num * bool)) : Prop :=
  (forall sh sh', common args sh -> common (args ++ more) sh' -> compatible (args ++ more ++ checked) ->
     exists r m, value call = Ok (r, m) /\ shape r = sh' /\ shape m = sh
     /\ forall i, inside sh' i -> exists b, at_ m i = Some b /\ scalar (place i) = Ok (place i r, b))
  /\ (~ compatible (args ++ more) -> value call = Err ValueError).

(** Van Gent (2025): the freeboard at which [q] (dimensionless) overtops, and the
    same after n iterations in which the discharge is divided by the influence of the
    wind on a wall of the height that the previous freeboard leaves above [Ac]. *)
Definition windless (Hm0 Hm0_swell cot_alpha ksi f b v o q : num) : num :=
  (nlog (#1 / #6.8 * cot_alpha * q) * (- #1 / #5) * f * b * v * o * ksi + #0.4 * Hm0_swell / Hm0)%num.
Fixpoint windy (freeboard : num -> num) (Hm0 Ac q : num) (n : nat) : num :=
  match n with
  | O => freeboard q
  | S n => freeboard (q / (#1 + #0.075 * ((windy freeboard Hm0 Ac q n * Hm0 - Ac) / Hm0) * npow q (- #0.3)))%num
  end.
