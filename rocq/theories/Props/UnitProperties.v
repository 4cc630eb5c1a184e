(** Property C73: the dictionaries unit_properties of the concrete units and the
    functions of the same modules. *)
From Coq Require Import Reals Lra Lia List Bool String ZArith Sorted.
From Verif.Lib Require Import Num Monad RTac NTac Str Table.
From Verif.Spec Require Import Waves Armour Units.
From Verif.Model Require Import CoreUtility CorePhysics Hudson1959 HudsonUnits Xbloc UnitProperties.
From Verif.Proofs Require Import Core CheckTac.
From Verif.Props Require Import Hudson ConcreteUnits.
Import ListNotations.
Open Scope string_scope.
Open Scope R_scope.

(** The dictionary has the published coefficients; the masses computed with
    them obey the Hudson relation and do not decrease from one situation to the
    next harsher one; the wave height computed with them gives the original
    wave height back. *)
Definition holds_table (properties : entry) (mass height : num -> num -> num -> num -> num -> num -> M num)
    (published : list (string * R)) : Prop :=
  forall Hs rw rs c al, 0 < rw -> rw < rs -> 0 < c -> 0 < al -> 0 < Hs ->
  exists masses,
    Forall2 (fun (k : string * R) m => 0 < m /\ hudson rs rw (snd k) c (al * Hs) m
       /\ value (mass_with mass properties (fst k) (Fin Hs) (Fin rw) (Fin rs) (Fin c) (Fin al)) = Ok (Fin m)
       /\ value (height_with height properties (fst k) (Fin m) (Fin rw) (Fin rs) (Fin c) (Fin al)) = Ok (Fin Hs))
      published masses
    /\ StronglySorted Rle masses.

Lemma heavier rs rw a b c H m m' : 0 < rw -> rw < rs -> 0 < c -> 0 < H -> 0 < b -> b <= a ->
  hudson rs rw a c H m -> hudson rs rw b c H m' -> m <= m'.
Proof.
  unfold hudson. intros. subst. fold (buoyant rs rw). pose proof (buoyant_pos rs rw ltac:(assumption) ltac:(assumption)).
  unfold Rdiv. apply Rmult_le_compat_l; [left; rpos|]. apply Rinv_le_contravar; [rpos|].
  apply Rmult_le_compat_r; [lra|]. apply Rmult_le_compat_r; [left; rpos|assumption].
Qed.

Lemma table_holds properties mass height published : implements_hudson mass height ->
  Forall (fun k : string * R => value (KD_entry properties (fst k)) = Ok (Number (Fin (snd k))) /\ 0 < snd k) published ->
  StronglySorted (fun a b => snd b <= snd a) published ->
  holds_table properties mass height published.
Proof.
  intros (HM & HE & _) F S Hs rw rs c al Hrw Hrs Hc Hal HHs.
  assert (Hal' : 0 < al * Hs) by rpos.
  induction S as [|[k a] l S IH L].
  - exists []. split; constructor.
  - inversion F as [|x y [V P] F' E]; subst. cbn [fst snd] in *. destruct (IH F') as (ms & A & B).
    destruct (HE Hs rw rs a c al) as (m & Pm & Hm); try assumption.
    destruct (HM Hs rw rs a c al m) as [V1 V2]; try assumption.
    exists (m :: ms). split; constructor; try assumption; cbn [fst snd].
    + split; [assumption|]. split; [assumption|]. unfold mass_with, height_with.
      rewrite !value_bind, V. cbn [as_number]. rewrite !value_bind. cbn [value ret snd]. auto.
    + clear - A L Hm P Hrw Hrs Hc Hal' F'. revert L F'.
      induction A as [|[k' a'] m' l ms (Pm' & H' & _) A IH]; intros L F'; constructor;
        apply Forall_cons_iff in L as [L0 L]; apply Forall_cons_iff in F' as [[_ P'] F']; cbn [fst snd] in *.
      * exact (heavier rs rw a a' c (al * Hs) m m' Hrw Hrs Hc Hal' P' L0 Hm H').
      * apply IH; assumption.
Qed.

Ltac table_tac L :=
  apply table_holds; [exact L| repeat (constructor; [split; [reflexivity|cbn [snd]; lra]|]); constructor
    | repeat (constructor; [|repeat (constructor; [cbn [snd]; lra|]); constructor]); constructor].

Theorem C73_accropode : holds_table accropode_properties accropode_unit_mass_M accropode_wave_height_Hs accropode_KD.
Proof. table_tac C38_accropode. Qed.
Theorem C73_accropode2 : holds_table accropode2_properties accropode2_unit_mass_M accropode2_wave_height_Hs accropode2_KD.
Proof. table_tac C38_accropode2. Qed.
Theorem C73_core_loc : holds_table core_loc_properties core_loc_unit_mass_M core_loc_wave_height_Hs core_loc_KD.
Proof. table_tac C38_core_loc. Qed.
Theorem C73_cubes : holds_table cubes_properties cubes_unit_mass_M cubes_wave_height_Hs cubes_KD.
Proof. table_tac C38_cubes. Qed.
Theorem C73_cubipod : holds_table cubipod_properties cubipod_unit_mass_M cubipod_wave_height_Hs cubipod_KD.
Proof. table_tac C38_cubipod. Qed.
Theorem C73_tetrapod : holds_table tetrapod_properties tetrapod_unit_mass_M tetrapod_wave_height_Hs tetrapod_KD.
Proof. table_tac C38_tetrapod. Qed.

(** ** The functions of the seabed slope and the dictionaries *)

(** The coefficient for non-breaking waves is the first listed one.  Under
    breaking waves the coefficient never exceeds it, whatever the seabed slope,
    and reaches it on a flat seabed. *)
Definition capped (KD_breaking : num -> M num) (KD_nonbreaking : num) (properties : entry) (key : string) : Prop :=
  exists top, value (KD_entry properties key) = Ok (Number (Fin top)) /\ KD_nonbreaking = Fin top
  /\ (forall s, exists k, value (KD_breaking (Fin s)) = Ok (Fin k) /\ k <= top)
  /\ (forall s, s <= 1 -> value (KD_breaking (Fin s)) = Ok (Fin top)).

Theorem C73_seabed_capped :
  capped accropode_KD_breaking accropode_KD_nonbreaking accropode_properties "trunk_non_breaking"
  /\ capped accropode2_KD_breaking accropode2_KD_nonbreaking accropode2_properties "trunk_nonbreaking"
  /\ capped accropode2_KD_breaking accropode2_KD_nonbreaking accropode2_properties "trunk_breaking_max"
  /\ capped core_loc_KD_breaking core_loc_KD_nonbreaking core_loc_properties "trunk".
Proof.
  destruct C40_nonbreaking_is_the_flat_seabed_value as (EA & E2 & EC & F).
  split; [exists 15|split; [exists 16|split; [exists 16|exists 16]]];
    (split; [reflexivity|split; [assumption|split]]); intros s;
    try (intros L; destruct (F s L) as (A & B & C); congruence);
    destruct (C40_KD_decreases_and_is_bounded s s (Rle_refl s)) as ((a & _ & A & _ & _ & LA) & (b & _ & B & _ & _ & LB) & (d & _ & C & _ & _ & LC));
    eauto.
Qed.

Lemma curve_end KD k0 k1 k2 K : follows_curve KD k0 k1 k2 -> k2 = IZR K * 0.1 ->
  forall s, 10 <= s -> value (KD (Fin s)) = Ok (Fin k2).
Proof.
  intros F E s L. destruct (F s) as (k & V & B). rewrite V. do 2 f_equal.
  assert (P : piecewise k0 k1 k2 s = k2).
  { unfold piecewise. destruct (Rlt_dec s 1), (Rlt_dec s 5), (Rlt_dec s 10); lra. }
  rewrite P in B. rewrite E. do 2 f_equal. apply Z.le_antisymm; apply Z.lt_succ_r, lt_IZR; rewrite succ_IZR; lra.
Qed.

(** Accropode II: the listed bounds for breaking waves are those of the
    function, both of them reached. *)
Theorem C73_accropode2_bounds :
  exists low high,
    value (KD_entry accropode2_properties "trunk_breaking_min") = Ok (Number (Fin low))
    /\ value (KD_entry accropode2_properties "trunk_breaking_max") = Ok (Number (Fin high))
    /\ (forall s, exists k, value (accropode2_KD_breaking (Fin s)) = Ok (Fin k) /\ low <= k <= high)
    /\ (forall s, s <= 1 -> value (accropode2_KD_breaking (Fin s)) = Ok (Fin high))
    /\ (forall s, 10 <= s -> value (accropode2_KD_breaking (Fin s)) = Ok (Fin low)).
Proof.
  exists 9, 16. split; [reflexivity|split; [reflexivity|]].
  destruct C40_nonbreaking_is_the_flat_seabed_value as (_ & E & _ & F).
  destruct C40_KD_follows_the_design_curve as (_ & G & _). split; [|split].
  - intros s. destruct (C40_KD_decreases_and_is_bounded s s (Rle_refl s)) as (_ & (a & b & A & B & LA & LB) & _).
    exists a. split; [assumption|lra].
  - intros s L. destruct (F s L) as (_ & A & _). congruence.
  - apply (curve_end _ _ _ _ 90 G). lra.
Qed.

(** Accropode: on a steep seabed, still within the range of validity, the
    function goes below every listed coefficient (those for a head included);
    it is not the listed 12 for a trunk under breaking waves. *)
Theorem C73_accropode_bounds_refuted :
  ~ (exists key low, value (KD_entry accropode_properties key) = Ok (Number (Fin low))
      /\ forall s, 0 <= s <= 10 -> exists k, value (accropode_KD_breaking (Fin s)) = Ok (Fin k) /\ low <= k).
Proof.
  intros (key & low & E & H). destruct (H 10) as (k & V & L); [lra|].
  destruct C40_KD_follows_the_design_curve as (G & _ & _).
  rewrite (curve_end _ _ _ _ 80 G) in V by lra. injection V as <-.
  assert (B : 9.5 <= low); [|lra].
  unfold KD_entry, accropode_properties in E. cbn [get find_key] in E.
  change ("KD" =? "KD")%string with true in E. cbn iota in E. rewrite bind_ret_l in E. cbn [get find_key] in E.
  repeat (destruct (String.eqb _ key); [cbn [value ret snd] in E; first [injection E as <-; lra|discriminate E]|]);
  discriminate E.
Qed.

(** ** Entries that cannot be used *)
(** Cubes: no coefficient for a head under breaking waves. *)
Theorem C73_cubes_head_breaking : forall Hs m rw rs c al,
  mass_with cubes_unit_mass_M cubes_properties "double_layer_head_breaking" Hs rw rs c al = raise TypeError
  /\ height_with cubes_wave_height_Hs cubes_properties "double_layer_head_breaking" m rw rs c al = raise TypeError.
Proof. intros. split; reflexivity. Qed.

(** Cubes of Van der Meer (1988) and Van Gent (2002): no coefficients. *)
Theorem C73_no_KD : forall key,
  KD_entry cubes_vandermeer_properties key = raise KeyError /\ KD_entry cubes_single_properties key = raise KeyError.
Proof. intros. split; reflexivity. Qed.

Definition with_KD : list entry :=
  [accropode_properties; accropode2_properties; core_loc_properties; cubes_properties; cubipod_properties;
   tetrapod_properties; xbloc_properties; xblocplus_properties].

(** There is no name under which all units list a coefficient: a program that
    reads the coefficient of any unit under one name stops at some unit. *)
Theorem C73_common_name_refuted : forall key,
  exists properties, In properties with_KD /\ value (KD_entry properties key) = Err KeyError.
Proof.
  intros key. destruct (String.eqb "trunk_breaking" key) eqn:E.
  - exists core_loc_properties. split; [unfold with_KD; simpl; tauto|]. apply String.eqb_eq in E as <-. reflexivity.
  - exists xblocplus_properties. split; [unfold with_KD; simpl; tauto|].
    unfold KD_entry, xblocplus_properties. cbn [get find_key]. change ("KD" =? "KD")%string with true.
    cbn iota. rewrite bind_ret_l. cbn [get find_key]. rewrite E. reflexivity.
Qed.

(** ** Thickness *)
Definition lists (properties : entry) (key : string) (e : entry) : Prop := value (get properties key) = Ok e.

(** The layer coefficients are the published ones. *)
Theorem C73_layer_coefficients :
  Forall2 (fun d kt => lists d "kt" (Number (Fin kt))) with_KD layer_coefficients
  /\ lists cubes_single_properties "kt" (Number (Fin 1)).
Proof. split; [repeat constructor|reflexivity]. Qed.

(** So are porosity and spacing of cubes in two layers, and the porosity of
    tetrapods; the two modules for cubes list the same. *)
Theorem C73_geometry :
  Forall (fun k => lists cubes_properties (fst k) (Number (Fin (snd k)))) cubes_geometry
  /\ lists tetrapod_properties "nv" (Number (Fin 0.5))
  /\ (forall key e, lists cubes_vandermeer_properties key e -> lists cubes_properties key e)
  /\ (forall key e, lists cubes_properties key e -> key <> "KD" -> lists cubes_vandermeer_properties key e).
Proof.
  split; [repeat constructor|]. split; [reflexivity|].
  unfold lists, cubes_vandermeer_properties, cubes_properties. cbn [get find_key].
  split; intros key e; (destruct (String.eqb "KD" key) eqn:K; [|auto]); apply String.eqb_eq in K as <-.
  - intros H. discriminate H.
  - intros _ H. contradiction H. reflexivity.
Qed.

(** The number of layers is 1 for the units made for a single layer and 2 for
    the others; only for the Cubipod it is a list, because both are possible. *)
Theorem C73_layers :
  Forall (fun d => lists d "nlayers" (Number (Fin 1)))
      [accropode_properties; accropode2_properties; core_loc_properties; cubes_single_properties; xbloc_properties; xblocplus_properties]
  /\ Forall (fun d => lists d "nlayers" (Number (Fin 2)))
      [cubes_properties; cubes_vandermeer_properties; tetrapod_properties]
  /\ lists cubipod_properties "nlayers" (Numbers [Fin 1; Fin 2]).
Proof. repeat split; repeat constructor. Qed.

(** ** Xbloc and XblocPlus *)
Theorem C73_xbloc_KD :
  Forall (fun k => value (KD_entry xbloc_properties (fst k)) = Ok (Number (Fin (snd k)))) xbloc_KD
  /\ Forall (fun k => value (KD_entry xblocplus_properties (fst k)) = Ok (Number (Fin (snd k)))) xblocplus_KD.
Proof. split; repeat constructor. Qed.

(** The sizing functions of Xbloc and XblocPlus do not use KD.  On a slope of
    3:4 (cot 1.33) they give the mass of the Hudson formula with the listed
    coefficient, with the wave height itself as design height, up to 0.2 % and
    2.2 %, and never less. *)
Definition near_hudson (mass : num -> num -> num -> num -> num) (properties : entry) (excess : R) : Prop :=
  exists KD, value (KD_entry properties "trunk_breaking") = Ok (Number (Fin KD))
  /\ forall Hs rw rs, 0 < rw -> rw < rs -> 0 < Hs ->
     exists m h, mass (Fin Hs) (Fin rw) (Fin rs) (Fin 1) = Fin m /\ hudson rs rw KD 1.33 Hs h
       /\ h < m < (1 + excess) * h.

Theorem C73_xbloc_size : near_hudson xbloc_unit_mass_M xbloc_properties 0.0013
  /\ near_hudson xblocplus_unit_mass_M xblocplus_properties 0.0215.
Proof.
  split; [exists 16|exists 12]; (split; [reflexivity|]); intros Hs rw rs Hrw Hrs HH;
    pose proof (buoyant_pos rs rw Hrw Hrs) as B.
  - exists (rs * Hs ^ 3 / (2.77 * buoyant rs rw) ^ 3), (rs * Hs ^ 3 / (16 * buoyant rs rw ^ 3 * 1.33)).
    split; [unfold xbloc_unit_mass_M, xbloc_unit_volume_V; rewrite Delta_fin by lra; nfin; f_equal; dec; field; lra|].
    split; [reflexivity|].
    set (q := rs * Hs ^ 3 / buoyant rs rw ^ 3). assert (0 < q) by (unfold q; rpos).
    replace (rs * Hs ^ 3 / (2.77 * buoyant rs rw) ^ 3) with (q / 2.77 ^ 3) by (unfold q; dec; field; lra).
    replace (rs * Hs ^ 3 / (16 * buoyant rs rw ^ 3 * 1.33)) with (q / (16 * 1.33)) by (unfold q; dec; field; lra).
    lra.
  - exists (rs * Hs ^ 3 / (2.5 * buoyant rs rw) ^ 3), (rs * Hs ^ 3 / (12 * buoyant rs rw ^ 3 * 1.33)).
    split; [unfold xblocplus_unit_mass_M, xblocplus_unit_volume_V; rewrite Delta_fin by lra; nfin; f_equal; dec; field; lra|].
    split; [reflexivity|].
    set (q := rs * Hs ^ 3 / buoyant rs rw ^ 3). assert (0 < q) by (unfold q; rpos).
    replace (rs * Hs ^ 3 / (2.5 * buoyant rs rw) ^ 3) with (q / 2.5 ^ 3) by (unfold q; dec; field; lra).
    replace (rs * Hs ^ 3 / (12 * buoyant rs rw ^ 3 * 1.33)) with (q / (12 * 1.33)) by (unfold q; dec; field; lra).
    lra.
Qed.

Example C73_example :
  value (mass_with tetrapod_unit_mass_M tetrapod_properties "head_breaking" (Fin 2) (Fin 1000) (Fin 2000) (Fin 2) (Fin 1))
  = Ok (Fin (16000 / 9)).
Proof.
  unfold mass_with, KD_entry. cbn. unfold tetrapod_unit_mass_M. rewrite mass_fin by lra. cbn [value ret snd]. do 2 f_equal. dec. field.
Qed.
