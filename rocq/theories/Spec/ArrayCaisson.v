(** Goda (1985) with arrays: which periods and depths go together. *)
From Coq Require Import List.
From Verif.Lib Require Import Num Monad Arr.
From Verif.Spec Require Import Arrays.
Import ListNotations.

(** Period and depth are two floats; or there are several depths, with one float as period
    or with as many periods. *)
Definition paired (T h : nums) : Prop :=
  (shape T = None /\ shape h = None)
  \/ exists n, 1 < n /\ shape h = Some n /\ (shape T = None \/ shape T = Some n).
