(** Property C56: the input files of the neural network and of the XGBoost model
    for overtopping. *)
From Coq Require Import Reals String Ascii List Bool Arith ZArith Lia.
From Verif.Lib Require Import Num Monad.
From Verif.Spec Require Import Writers.
From Verif.Model Require Import Pandas OvertoppingVanGent2007 OvertoppingDenBieman2021.
Import ListNotations.
Open Scope num_scope.
Open Scope string_scope.
Open Scope nat_scope.

(** The values an argument has for [n] cases: those of an array, or a number
    repeated. *)
Inductive column (n : nat) : arg -> list num -> Prop :=
| column_array l : List.length l = n -> column n (Array l) l
| column_float x : column n (Float x) (repeat x n)
| column_integer z : column n (Integer z) (repeat (Fin (IZR z)) n).

Definition is_array (a : arg) : Prop := exists l, a = Array l.

Lemma column_fits n a l : column n a l -> fits n a = true.
Proof. destruct 1; cbn; try reflexivity. apply Nat.eqb_eq. assumption. Qed.
Lemma column_value n a l i : column n a l -> i < n -> value_at i a = nth i l NaN.
Proof.
  destruct 1; intros L; cbn; [reflexivity| |].
  - revert i L. induction n; intros [|i] L; cbn; try lia; [reflexivity|apply IHn; lia].
  - revert i L. induction n; intros [|i] L; cbn; try lia; [reflexivity|apply IHn; lia].
Qed.

Lemma lengths_in a l : In (Array a) l -> In (List.length a) (lengths l).
Proof. intros. unfold lengths. apply in_flat_map. exists (Array a). split; [assumption|left; reflexivity]. Qed.
Lemma in_lengths n l : In n (lengths l) -> exists a, In (Array a) l /\ List.length a = n.
Proof. unfold lengths. intros I. apply in_flat_map in I. destruct I as ([x|z|a] & I & J); try contradiction. destruct J as [<-|[]]. eauto. Qed.

Lemma frame_ok data n (fl : bool) : Forall (fun a => fits n a = true) (map snd data) ->
  (fl = true -> n = 1) -> (fl = false -> exists a, In (Array a) (map snd data)) ->
  DataFrame data (if fl then Some 1 else None) = Ok (Frame (map fst data) (rows n (map snd data))).
Proof.
  intros F H1 H2. unfold DataFrame. destruct fl.
  - specialize (H1 eq_refl). subst n. replace (forallb (fits 1) (map snd data)) with true; [reflexivity|].
    symmetry. apply forallb_forall. rewrite Forall_forall in F. exact F.
  - destruct (H2 eq_refl) as [a I]. rewrite Forall_forall in F.
    assert (G : forall m, In m (lengths (map snd data)) -> m = n).
    { intros m J. apply in_lengths in J. destruct J as (b & J & <-). specialize (F _ J). cbn in F. apply Nat.eqb_eq in F. exact F. }
    apply lengths_in in I. destruct (lengths (map snd data)) as [|m others]; [contradiction|].
    rewrite (G m) by (left; reflexivity). replace (forallb (Nat.eqb n) others) with true; [reflexivity|].
    symmetry. apply forallb_forall. intros k J. apply Nat.eqb_eq. symmetry. apply G. right. exact J.
Qed.

Lemma rows_cases {C} (cases : list C) (fields : list (C -> num)) args :
  Forall2 (fun a f => column (List.length cases) a (map f cases)) args fields ->
  rows (List.length cases) args = map (fun c => map (fun f => f c) fields) cases.
Proof.
  intros F. unfold rows. destruct cases as [|d cs]; [reflexivity|]. set (cases := d :: cs) in *.
  transitivity (map (fun i => map (fun f => f (nth i cases d)) fields) (seq 0 (List.length cases))).
  - apply map_ext_in. intros i I. apply in_seq in I. revert F. generalize fields args. induction fields0 as [|f fs IH]; intros as_ F; inversion F as [|a ? ar ? P Q]; subst; [reflexivity|].
    cbn [map]. f_equal; [|apply IH; assumption].
    rewrite (column_value _ _ _ i P) by lia. rewrite (nth_indep _ NaN (f d)) by (rewrite map_length; lia). apply map_nth.
  - rewrite <- (map_map (fun i => nth i cases d) (fun c => map (fun f => f c) fields)). f_equal. clear.
    induction cases as [|c l IH]; [reflexivity|]. cbn [List.length seq map nth]. f_equal. rewrite <- seq_shift, map_map. exact IH.
Qed.

Lemma csv_rows sep (idx : bool) names rs :
  to_csv (Frame names rs) sep idx false = map (fun '(i, cells) => Row sep (if idx then Some i else None) cells) (combine (seq 0 (List.length rs)) rs).
Proof. reflexivity. Qed.
Lemma csv_rows_plain sep names rs : to_csv (Frame names rs) sep false false = map (Row sep None) rs.
Proof.
  rewrite csv_rows. generalize 0 at 1. induction rs as [|r rs IH]; intros n; [reflexivity|]. cbn [List.length seq combine map]. f_equal. apply IH.
Qed.

(** The neural network: the file documents fifteen columns, and there is a row for
    each case with the values in those columns; whatever was in the file is gone. *)
Theorem C56_neural_network : forall file_name before cases beta h Hm0 Tmm10 Bt ht B_berm db Rc Ac Gc cot_alpha_down cot_alpha_up gamma_f tan_alpha_B,
  let n := List.length cases in
  column n beta (map nn_beta cases) -> column n h (map nn_h cases) -> column n Hm0 (map nn_Hm0 cases) ->
  column n Tmm10 (map nn_Tmm10 cases) -> column n Bt (map nn_Bt cases) -> column n ht (map nn_ht cases) ->
  column n B_berm (map nn_B cases) -> column n db (map nn_db cases) -> column n Rc (map nn_Rc cases) ->
  column n Ac (map nn_Ac cases) -> column n Gc (map nn_Gc cases) -> column n cot_alpha_down (map nn_cot_down cases) ->
  column n cot_alpha_up (map nn_cot_up cases) -> column n gamma_f (map nn_gf cases) -> column n tan_alpha_B (map nn_tan_B cases) ->
  (if is_float beta then n = 1
   else Exists is_array [beta; h; Hm0; Tmm10; Bt; ht; B_berm; db; Rc; Ac; Gc; cot_alpha_down; cot_alpha_up; gamma_f; tan_alpha_B]) ->
  exists above below,
  write_input_file_NN_Overtopping beta h Hm0 Tmm10 Bt ht B_berm db Rc Ac Gc cot_alpha_down cot_alpha_up gamma_f tan_alpha_B file_name before
  = ((map Text (above ++ map fst nn_columns ++ below) ++ map (fun c => Row " " None (map (fun col => snd col c) nn_columns)) cases)%list, Ok tt)
  /\ Forall (fun s => exists rest, s = String "!"%char rest \/ s = String "*"%char rest) (above ++ below)%list.
Proof.
  intros file_name before cases beta h Hm0 Tmm10 Bt ht B_berm db Rc Ac Gc cot_alpha_down cot_alpha_up gamma_f tan_alpha_B n C1 C2 C3 C4 C5 C6 C7 C8 C9 C10 C11 C12 C13 C14 C15 G.
  exists (firstn 5 (header file_name)), (skipn 20 (header file_name)). split.
  - unfold write_input_file_NN_Overtopping.
    erewrite frame_ok with (n := n).
    + cbn [map fst snd]. rewrite csv_rows_plain. f_equal. f_equal.
      assert (F := rows_cases cases (map snd nn_columns) [beta; h; Hm0; Tmm10; ht; Bt; gamma_f; cot_alpha_down; cot_alpha_up; Rc; B_berm; db; tan_alpha_B; Ac; Gc]).
      fold n in F. rewrite F by (repeat (constructor; [assumption|]); constructor). rewrite map_map. apply map_ext. intros c. rewrite map_map. reflexivity.
    + cbn [map snd]. repeat (constructor; [eapply column_fits; eassumption|]); constructor.
    + intros E. rewrite E in G. exact G.
    + intros E. rewrite E in G. apply Exists_exists in G. destruct G as (a & I & l & ->). exists l. cbn [map snd]. cbn in I |- *. tauto.
  - cbn [firstn skipn header app]. repeat constructor; eexists; first [left; reflexivity|right; reflexivity].
Qed.

(** The XGBoost model: sixteen named columns, after the number of the row. *)
Theorem C56_xgboost : forall before cases beta h Hm0 Tmm10 Bt ht B_berm db Rc Ac Gc cot_alpha_down cot_alpha_up gamma_f_down gamma_f_up tan_alpha_f,
  let n := List.length cases in
  column n beta (map x_beta cases) -> column n h (map x_h cases) -> column n Hm0 (map x_Hm0 cases) ->
  column n Tmm10 (map x_Tmm10 cases) -> column n Bt (map x_Bt cases) -> column n ht (map x_ht cases) ->
  column n B_berm (map x_B cases) -> column n db (map x_db cases) -> column n Rc (map x_Rc cases) ->
  column n Ac (map x_Ac cases) -> column n Gc (map x_Gc cases) -> column n cot_alpha_down (map x_cot_down cases) ->
  column n cot_alpha_up (map x_cot_up cases) -> column n gamma_f_down (map x_gf_down cases) -> column n gamma_f_up (map x_gf_up cases) ->
  column n tan_alpha_f (map x_tan_f cases) ->
  (if is_float beta then n = 1
   else Exists is_array [beta; h; Hm0; Tmm10; Bt; ht; B_berm; db; Rc; Ac; Gc; cot_alpha_down; cot_alpha_up; gamma_f_down; gamma_f_up; tan_alpha_f]) ->
  write_input_file_XGB_Overtopping beta h Hm0 Tmm10 Bt ht B_berm db Rc Ac Gc cot_alpha_down cot_alpha_up gamma_f_down gamma_f_up tan_alpha_f before
  = (Names ";" true (map fst xgb_columns)
     :: map (fun '(i, c) => Row ";" (Some i) (map (fun col => snd col c) xgb_columns)) (combine (seq 0 n) cases), Ok tt).
Proof.
  intros before cases beta h Hm0 Tmm10 Bt ht B_berm db Rc Ac Gc cot_alpha_down cot_alpha_up gamma_f_down gamma_f_up tan_alpha_f n C1 C2 C3 C4 C5 C6 C7 C8 C9 C10 C11 C12 C13 C14 C15 C16 G.
  unfold write_input_file_XGB_Overtopping. erewrite frame_ok with (n := n).
  - cbn [map fst snd]. unfold to_csv. cbn [frame_names frame_rows app].
    assert (F := rows_cases cases (map snd xgb_columns) [beta; h; Hm0; Tmm10; ht; Bt; db; B_berm; Rc; Ac; Gc; cot_alpha_down; cot_alpha_up; gamma_f_down; gamma_f_up; tan_alpha_f]).
    fold n in F. rewrite F by (repeat (constructor; [assumption|]); constructor). f_equal. f_equal. rewrite map_length.
    unfold n. clear. generalize 0. induction cases as [|c cs IH]; intros k; [reflexivity|]. cbn [List.length seq combine]. rewrite !map_cons, <- IH.
    cbn [combine map snd xgb_columns]. reflexivity.
  - cbn [map snd]. repeat (constructor; [eapply column_fits; eassumption|]); constructor.
  - intros E. rewrite E in G. exact G.
  - intros E. rewrite E in G. apply Exists_exists in G. destruct G as (a & I & l & ->). exists l. cbn [map snd]. cbn in I |- *. tauto.
Qed.

(** ** Failures *)

(** A failing call leaves the file of the neural network with comments only, and
    that of the XGBoost model as it was. *)
Definition nn_fails (r : list line * res unit) : Prop :=
  exists comments, r = (map Text comments, Err ValueError)
    /\ Forall (fun s => exists rest, s = String "!"%char rest \/ s = String "*"%char rest) comments.
Definition xgb_fails before r : Prop := r = (before : list line, @Err unit ValueError).

Lemma header_comments file_name : Forall (fun s => exists rest, s = String "!"%char rest \/ s = String "*"%char rest) (header file_name).
Proof. cbn [header app]. repeat constructor; eexists; first [left; reflexivity|right; reflexivity]. Qed.

Lemma frame_no_array data : ~ Exists is_array (map snd data) -> DataFrame data None = Err ValueError.
Proof.
  intros N. unfold DataFrame. destruct (lengths (map snd data)) as [|m others] eqn:E; [reflexivity|].
  exfalso. apply N. assert (I : In m (lengths (map snd data))) by (rewrite E; left; reflexivity). apply in_lengths in I.
  destruct I as (a & I & _). apply Exists_exists. exists (Array a). split; [exact I|eexists; reflexivity].
Qed.
Lemma frame_scalar_array data l : In (Array l) (map snd data) -> List.length l <> 1 -> DataFrame data (Some 1) = Err ValueError.
Proof.
  intros I N. unfold DataFrame. destruct (forallb (fits 1) (map snd data)) eqn:E; [|reflexivity].
  rewrite forallb_forall in E. specialize (E _ I). cbn in E. apply Nat.eqb_eq in E. contradiction.
Qed.
Lemma frame_two_lengths data l l' : In (Array l) (map snd data) -> In (Array l') (map snd data) -> List.length l <> List.length l' -> DataFrame data None = Err ValueError.
Proof.
  intros I J N. unfold DataFrame. apply lengths_in in I, J. destruct (lengths (map snd data)) as [|m others]; [reflexivity|].
  destruct (forallb (Nat.eqb m) others) eqn:E; [|reflexivity]. exfalso. rewrite forallb_forall in E.
  assert (G : forall k, In k (m :: others) -> k = m). { intros k [->|K]; [reflexivity|]. symmetry. apply Nat.eqb_eq, E. exact K. }
  rewrite (G _ I), (G _ J) in N. contradiction.
Qed.

(** An integer angle and no array at all: there is no result, although the same
    call with a float works. *)
Theorem C56_integer_scalar : forall file_name before (z : Z) h Hm0 Tmm10 Bt ht B_berm db Rc Ac Gc cot_alpha_down cot_alpha_up gamma_f tan_alpha_B gamma_f_up,
  Forall (fun a => ~ is_array a) [h; Hm0; Tmm10; Bt; ht; B_berm; db; Rc; Ac; Gc; cot_alpha_down; cot_alpha_up; gamma_f; tan_alpha_B; gamma_f_up] ->
  nn_fails (write_input_file_NN_Overtopping (Integer z) h Hm0 Tmm10 Bt ht B_berm db Rc Ac Gc cot_alpha_down cot_alpha_up gamma_f tan_alpha_B file_name before)
  /\ xgb_fails before (write_input_file_XGB_Overtopping (Integer z) h Hm0 Tmm10 Bt ht B_berm db Rc Ac Gc cot_alpha_down cot_alpha_up gamma_f gamma_f_up tan_alpha_B before)
  /\ snd (write_input_file_NN_Overtopping (Float (Fin (IZR z))) h Hm0 Tmm10 Bt ht B_berm db Rc Ac Gc cot_alpha_down cot_alpha_up gamma_f tan_alpha_B file_name before) = Ok tt
  /\ snd (write_input_file_XGB_Overtopping (Float (Fin (IZR z))) h Hm0 Tmm10 Bt ht B_berm db Rc Ac Gc cot_alpha_down cot_alpha_up gamma_f gamma_f_up tan_alpha_B before) = Ok tt.
Proof.
  intros file_name before z h Hm0 Tmm10 Bt ht B_berm db Rc Ac Gc cot_alpha_down cot_alpha_up gamma_f tan_alpha_B gamma_f_up F. rewrite Forall_forall in F.
  assert (NZ : ~ is_array (Integer z)) by (intros [l E]; discriminate).
  assert (FT : forall a, ~ is_array a -> fits 1 a = true) by (intros [x|y|l] N; [reflexivity|reflexivity|exfalso; apply N; eexists; reflexivity]).
  assert (FS : forall a, In a [h; Hm0; Tmm10; Bt; ht; B_berm; db; Rc; Ac; Gc; cot_alpha_down; cot_alpha_up; gamma_f; tan_alpha_B; gamma_f_up] -> fits 1 a = true) by (intros a I; apply FT, F, I).
  split; [|split; [|split]].
  - exists (header file_name). split; [|apply header_comments]. unfold write_input_file_NN_Overtopping. cbn [is_float]. rewrite frame_no_array; [reflexivity|].
    intros X. apply Exists_exists in X. destruct X as (a & I & A). cbn [map snd] in I. destruct I as [<-|I]; [exact (NZ A)|]. apply (F a); [cbn in I |- *; tauto|exact A].
  - unfold xgb_fails, write_input_file_XGB_Overtopping. cbn [is_float]. rewrite frame_no_array; [reflexivity|].
    intros X. apply Exists_exists in X. destruct X as (a & I & A). cbn [map snd] in I. destruct I as [<-|I]; [exact (NZ A)|]. apply (F a); [cbn in I |- *; tauto|exact A].
  - unfold write_input_file_NN_Overtopping. cbn [is_float]. rewrite (frame_ok _ 1 true); [reflexivity| |reflexivity|discriminate].
    cbn [map snd]. constructor; [reflexivity|]. repeat (constructor; [apply FS; cbn; tauto|]); constructor.
  - unfold write_input_file_XGB_Overtopping. cbn [is_float]. rewrite (frame_ok _ 1 true); [reflexivity| |reflexivity|discriminate].
    cbn [map snd]. constructor; [reflexivity|]. repeat (constructor; [apply FS; cbn; tauto|]); constructor.
Qed.

(** A float angle with any array that does not have exactly one value: no result,
    although the same call with an integer angle or an array of equal angles may
    work. *)
Theorem C56_float_with_array : forall file_name before x l h Hm0 Tmm10 Bt ht B_berm db Rc Ac Gc cot_alpha_down cot_alpha_up gamma_f tan_alpha_B gamma_f_up,
  List.length l <> 1 ->
  (In (Array l) [h; Hm0; Tmm10; Bt; ht; B_berm; db; Rc; Ac; Gc; cot_alpha_down; cot_alpha_up; gamma_f; tan_alpha_B] ->
   nn_fails (write_input_file_NN_Overtopping (Float x) h Hm0 Tmm10 Bt ht B_berm db Rc Ac Gc cot_alpha_down cot_alpha_up gamma_f tan_alpha_B file_name before))
  /\ (In (Array l) [h; Hm0; Tmm10; Bt; ht; B_berm; db; Rc; Ac; Gc; cot_alpha_down; cot_alpha_up; gamma_f; tan_alpha_B; gamma_f_up] ->
   xgb_fails before (write_input_file_XGB_Overtopping (Float x) h Hm0 Tmm10 Bt ht B_berm db Rc Ac Gc cot_alpha_down cot_alpha_up gamma_f gamma_f_up tan_alpha_B before)).
Proof.
  intros file_name before x l h Hm0 Tmm10 Bt ht B_berm db Rc Ac Gc cot_alpha_down cot_alpha_up gamma_f tan_alpha_B gamma_f_up N. split; intros I.
  - exists (header file_name). split; [|apply header_comments]. unfold write_input_file_NN_Overtopping. cbn [is_float]. rewrite (frame_scalar_array _ l); [reflexivity| |exact N]. cbn [map snd]. right. cbn in I |- *. tauto.
  - unfold xgb_fails, write_input_file_XGB_Overtopping. cbn [is_float]. rewrite (frame_scalar_array _ l); [reflexivity| |exact N]. cbn [map snd]. right. cbn in I |- *. tauto.
Qed.

(** Arrays of different lengths are refused. *)
Theorem C56_different_lengths : forall file_name before l l' beta h Hm0 Tmm10 Bt ht B_berm db Rc Ac Gc cot_alpha_down cot_alpha_up gamma_f tan_alpha_B gamma_f_up,
  List.length l <> List.length l' ->
  (In (Array l) [beta; h; Hm0; Tmm10; Bt; ht; B_berm; db; Rc; Ac; Gc; cot_alpha_down; cot_alpha_up; gamma_f; tan_alpha_B] ->
   In (Array l') [beta; h; Hm0; Tmm10; Bt; ht; B_berm; db; Rc; Ac; Gc; cot_alpha_down; cot_alpha_up; gamma_f; tan_alpha_B] ->
   nn_fails (write_input_file_NN_Overtopping beta h Hm0 Tmm10 Bt ht B_berm db Rc Ac Gc cot_alpha_down cot_alpha_up gamma_f tan_alpha_B file_name before))
  /\ (In (Array l) [beta; h; Hm0; Tmm10; Bt; ht; B_berm; db; Rc; Ac; Gc; cot_alpha_down; cot_alpha_up; gamma_f; tan_alpha_B; gamma_f_up] ->
   In (Array l') [beta; h; Hm0; Tmm10; Bt; ht; B_berm; db; Rc; Ac; Gc; cot_alpha_down; cot_alpha_up; gamma_f; tan_alpha_B; gamma_f_up] ->
   xgb_fails before (write_input_file_XGB_Overtopping beta h Hm0 Tmm10 Bt ht B_berm db Rc Ac Gc cot_alpha_down cot_alpha_up gamma_f gamma_f_up tan_alpha_B before)).
Proof.
  intros file_name before l l' beta h Hm0 Tmm10 Bt ht B_berm db Rc Ac Gc cot_alpha_down cot_alpha_up gamma_f tan_alpha_B gamma_f_up N.
  assert (FE : forall data, In (Array l) (map snd data) -> In (Array l') (map snd data) -> DataFrame data (if is_float beta then Some 1 else None) = Err ValueError).
  { intros data I J. destruct (is_float beta); [|apply (frame_two_lengths _ l l'); assumption].
    destruct (Nat.eq_dec (List.length l) 1) as [E|E]; [apply (frame_scalar_array _ l'); [assumption|lia]|apply (frame_scalar_array _ l); assumption]. }
  split; intros I J.
  - exists (header file_name). split; [|apply header_comments]. unfold write_input_file_NN_Overtopping. rewrite FE; [reflexivity| |]; cbn [map snd]; cbn in I, J |- *; tauto.
  - unfold xgb_fails, write_input_file_XGB_Overtopping. rewrite FE; [reflexivity| |]; cbn [map snd]; cbn in I, J |- *; tauto.
Qed.

(** Two cases that differ in angle and freeboard. *)
Example C56_example :
  fst (write_input_file_XGB_Overtopping (Array [#0; #30]) (Float #8) (Float #2) (Float #6) (Integer 4) (Float #5) (Integer 3) (Integer 1)
         (Array [#4; #5]) (Float #3.5) (Integer 2) (Float #1.5) (Integer 2) (Float #0.5) (Float #0.55) (Float #0.01) [Text "old"])
  = [ Names ";" true ["b"; "h"; "Hm0 toe"; "Tm-1,0 toe"; "ht"; "Bt"; "hb"; "B"; "Rc"; "Ac"; "Gc"; "cotad"; "cotau"; "gf_d"; "gf_u"; "tanaf"];
      Row ";" (Some 0) [#0; #8; #2; #6; #5; #4; #1; #3; #4; #3.5; #2; #1.5; #2; #0.5; #0.55; #0.01];
      Row ";" (Some 1) [#30; #8; #2; #6; #5; #4; #1; #3; #5; #3.5; #2; #1.5; #2; #0.5; #0.55; #0.01] ].
Proof. reflexivity. Qed.
