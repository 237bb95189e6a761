(** Soundings and the external parameters of a run. *)
From Verif Require Import Py Nd Numpy.
Open Scope Z_scope.

(** One row of the structured array given to [add_points]: 'x', 'y', 'z', 'tvu', 'thu'.
    x and y are in ticks, the others are exact rationals. *)
Record point := Point { px : Z; py : Z; pz : Q; ptvu : Q; pthu : Q }.

(** Layer values: [None] is NaN. Integer layers (density, hypothesis_count) hold integral
    values and never [None]. *)
Notation cell := (option Q).
Notation arr := (nd cell).

(** [np.round(layer, 3)] *)
Definition arr_round3 (a : arr) : arr := nd_map (option_map round3) a.

Definition qnat (n : nat) : Q := inject_Z (Z.of_nat n).

(** Optional columns of the structured arrays. Simplification: all data added to one grid share
    the same columns (numpy raises when they differ within a tile). *)
Record dtype := Dtype { has_tvu : bool; has_thu : bool }.

(** CUBE settings: the 'method', 'iho_order' and 'variance_selection' keys of grid_parameters. *)
Record params := Params { p_method : option string; p_iho : option string; p_var : option string }.

(** Arguments of bathycube's run_cube_gridding as called at algorithms.py:199-202 and its four
    result arrays. *)
Record cube_call := CubeCall {
  cc_depth : list Q; cc_thu : list Q; cc_tvu : list Q; cc_x : list Z; cc_y : list Z;
  cc_numcols : nat; cc_numrows : nat; cc_min_easting : Z; cc_max_northing : Z;
  cc_method : string; cc_iho : string; cc_resolution : Z; cc_variance : string }.
Record cube_out := CubeOut { co_depth : arr; co_unc : arr; co_ratio : arr; co_hyp : arr }.

(** Everything outside the code that a run depends on: the columns of the data, the length of a
    tick (e_tpq ticks are 0.25 m), and the external numerical routines. *)
Record env := Env {
  e_dt : dtype;
  e_tpq : Z;
  e_cube_enabled : bool;
  e_cube : cube_call -> cube_out;
  e_sqrt : Q -> Q;
  e_lstsq : list (Z * Z * Q) -> Q * Q }.

(** A length in ticks as a number of metres. *)
Definition metres (e : env) (t : Z) : Q := (t # (4 * Z.to_pos (e_tpq e)))%Q.
