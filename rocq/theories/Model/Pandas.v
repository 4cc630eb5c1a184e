(** What the two writers of input files use of pandas: a DataFrame made from a
    dictionary of columns, and to_csv.  Numbers are kept as numbers, their
    formatting is not modelled. *)
From Coq Require Import Reals String List Bool Arith ZArith.
From Verif.Lib Require Import Num Monad.
Import ListNotations.

(** An argument: a float (numpy's float64 included), an integer, or an array with
    one axis. *)
Inductive arg : Type := Float (x : num) | Integer (z : Z) | Array (l : list num).

Definition is_float (a : arg) : bool := match a with Float _ => true | _ => false end.
Definition value_at (i : nat) (a : arg) : num :=
  match a with Float x => x | Integer z => Fin (IZR z) | Array l => nth i l NaN end.
Definition fits (n : nat) (a : arg) : bool :=
  match a with Array l => Nat.eqb (List.length l) n | _ => true end.
Definition lengths (l : list arg) : list nat :=
  flat_map (fun a => match a with Array l => [List.length l] | _ => [] end) l.

Record frame : Type := Frame { frame_names : list string; frame_rows : list (list num) }.

Definition rows (n : nat) (columns : list arg) : list (list num) :=
  map (fun i => map (value_at i) columns) (seq 0 n).

(** pandas.DataFrame(data, index).  With an index, arrays need its length and
    scalars are repeated; without one the arrays need a common length, and there
    must be one. *)
Definition DataFrame (data : list (string * arg)) (index : option nat) : res frame :=
  let columns := map snd data in
  match index with
  | Some n => if forallb (fits n) columns then Ok (Frame (map fst data) (rows n columns)) else Err ValueError
  | None =>
      match lengths columns with
      | [] => Err ValueError
      | n :: others => if forallb (Nat.eqb n) others then Ok (Frame (map fst data) (rows n columns)) else Err ValueError
      end
  end.

(** Lines of a text file. *)
Inductive line : Type :=
| Text (s : string)
| Names (sep : string) (with_index : bool) (names : list string)
| Row (sep : string) (index : option nat) (cells : list num).

(** DataFrame.to_csv(sep, index, header) *)
Definition to_csv (f : frame) (sep : string) (index header : bool) : list line :=
  (if header then [Names sep index (frame_names f)] else [])
  ++ map (fun '(i, cells) => Row sep (if index then Some i else None) cells)
       (combine (seq 0 (List.length (frame_rows f))) (frame_rows f)).
