(** The text of the names of folders and files (backends.py). *)
From Coq Require Import Ascii.
From stdpp Require Import pretty.
From Verif Require Import Py Nd Numpy Point Bin Algorithms Tile Time Meta Disk.
Open Scope Z_scope.

(** What '{}'.format gives for a float; [repr] is python's float repr, applied to a number of ticks. *)
(** backends.py:178-179 and bgrid.py:652-653: '{}_{}'.format(x, y) *)
Definition tile_text (repr : Z -> string) (x y : Z) : string := repr x +:+ "_" +:+ repr y.
(** backends.py:45, 97-99 (metadata.json and the grid arrays), 401, 410-428 *)
Definition text (repr : Z -> string) (n : fname) : string :=
  match n with
  | FFolder (NRoot s) => s
  | FFolder (NTile x y) => tile_text repr x y
  | FMeta => "metadata.json"
  | FGridArray key => key
  | FData => "data"
  | FCells r layer => "cells_" +:+ repr r +:+ "_" +:+ layer
  | FEdgesX r => "cell_edges_x_" +:+ repr r
  | FEdgesY r => "cell_edges_y_" +:+ repr r
  | FIndices r => "cell_" +:+ repr r +:+ "_indices"
  end.

(** str.split(c) *)
Fixpoint split_char (c : ascii) (cur l : list ascii) : list (list ascii) :=
  match l with
  | [] => [cur]
  | d :: r => if Ascii.eqb d c then cur :: split_char c [] r else split_char c (cur ++ [d]) r
  end.
Definition py_split (c : ascii) (s : string) : list string := map string_of_list_ascii (split_char c [] (list_ascii_of_string s)).
(** backends.py:449-452, 636-639: the resolution in the name of an entry of a tile folder; [float_of] is float().
    Simplification: a name without a second section or whose second section is no number is skipped, the code
    raises IndexError or ValueError. *)
Definition resolution_in (float_of : string -> option Z) (name : string) : option Z :=
  match py_split "_"%char name with
  | a :: b :: _ => if decide (a = "cells") then float_of b else None
  | _ => None
  end.
(** backends.py:406: fldr[:4] == 'cell' *)
Definition starts_cell (name : string) : bool := bool_decide (take 4 (list_ascii_of_string name) = list_ascii_of_string "cell").

(** The float repr of a multiple of a quarter, given as the number of quarters. python prints these digits
    for numbers below 10^13 (at most 15 significant digits). *)
Definition repr_quarters (k : Z) : string :=
  (if k <? 0 then "-" else "") +:+ pretty (Z.to_N (Z.abs k / 4)) +:+ "." +:+
  match Z.abs k mod 4 with 0 => "0" | 1 => "25" | 2 => "5" | _ => "75" end.
