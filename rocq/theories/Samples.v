(** Concrete values used by the examples beside the theorems. *)
From Verif Require Import Py Nd Numpy Point Bin Algorithms Tile Spec.
Open Scope Z_scope.

(** A CUBE engine that fills every cell with the number of points it was given. *)
Definition count_cube (c : cube_call) : cube_out :=
  let a := nd_full (cc_numrows c) (cc_numcols c) (Some (qnat (length (cc_depth c)))) in CubeOut a a a a.
(** A CUBE engine whose depth at engine row i, column j is 10 i + j, undefined on row 0. *)
Definition row_cube (c : cube_call) : cube_out :=
  let a := nd_init (cc_numrows c) (cc_numcols c) (fun i j =>
             if (i =? 0)%nat then None else Some (qnat (10 * i + j))) in
  CubeOut a a a a.
(** One tick is 0.25 m. *)
Definition env_s : env :=
  Env (Dtype true true) 1 true row_cube (fun q => q) (fun l => (qnat (length l), 0%Q)).
Definition env_plain : env :=
  Env (Dtype false false) 1 true row_cube (fun q => q) (fun l => (qnat (length l), 0%Q)).

(** Four soundings in a tile of 8 x 8 ticks (2 m x 2 m), two of them in the same 1 m cell. *)
Definition pt_a := Point 1 1 10 1 (1 # 2).
Definition pt_b := Point 5 1 5 2 (3 # 2).
Definition pt_c := Point 2 3 12 3 (5 # 2).
Definition pt_d := Point 6 7 (7 # 3) 4 (7 # 2).
Definition tile_s : tile := t_add_points (t_add_points (new_tile 0 0 8 false) [pt_a; pt_b] "one") [pt_c; pt_d] "two".
