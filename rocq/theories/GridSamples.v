(** Grids used by the examples beside the theorems. *)
From Verif Require Import Py Nd Numpy Point Bin Algorithms Tile Time Meta Disk Grid GridRun GridQuery GridOps Spec TileExec GridExec Samples.
Open Scope Z_scope.

Definition args_of (c : string) : add_args := AddArgs c [] None None None None "now".
Definition sr_add (g : sr_grid) (d : list point) (c : string) : sr_grid := st_of (g_add_points sr_ops g (GoodData d) (args_of c)).
Definition vr_add (g : vr_grid) (d : list point) (c : string) : vr_grid := st_of (g_add_points vr_ops g (GoodData d) (args_of c)).
(** Soundings in three tiles of side 8, one of them with negative coordinates, one on a tile corner. *)
Definition pts_one := [Point 1 1 10 1 1; Point 13 2 20 1 1; Point 3 7 30 1 1].
Definition pts_two := [Point (-3) (-8) 5 1 1; Point 8 0 7 1 1].
Definition sr_1 := sr_add (create_sr 8 false false true) pts_one "one".
Definition sr_2 := sr_add sr_1 pts_two "two".
Definition vr_1 := vr_add (create_vr 16 5 false false true) pts_one "one".
Definition vr_2 := vr_add vr_1 pts_two "two".
Definition ct_2 : content := [("one", pts_one); ("two", pts_two)].

(** Calls of grid() with a given resolution. *)
Definition grid_args (alg : string) (r : Z) (clear : bool) (regrid : string) : gargs := GArgs alg (Some r) clear "depth" regrid None None.
Definition sr_run (e : env) (g : sr_grid) (a : gargs) : sr_grid := st_of (g_grid sr_ops e g a None).
Definition vr_run (e : env) (g : vr_grid) (a : gargs) : vr_grid := st_of (g_grid vr_ops e g a None).
(** A CUBE engine that counts the points it is given. *)
Definition env_count : env := Env (Dtype true true) 1 true count_cube (fun q => q) (fun l => (qnat (length l), 0%Q)).

(** ** Histories for the examples *)
Definition mean_4 := grid_args "mean" 4 false "full".
Definition mean_8 := grid_args "mean" 8 false "full".
Definition mean_4_up := grid_args "mean" 4 false "update".
Definition pts_three := [Point (-2) (-7) 50 1 1].
Definition pts_four := [Point 2 2 40 1 1].
(** Gridded at 1 m, then one more sounding in the first tile. *)
Definition run_1 := sr_run env_s sr_2 mean_4.
Definition run_2 := sr_add run_1 pts_three "three".
Definition ct_3 : content := ct_2 ++ [("three", pts_three)].
Example sr_2_clean P : sr_clean env_s P 8 false false true sr_2 ct_2.
Proof. apply (CH_add _ _ _ _ sr_1 [("one", pts_one)] pts_two (args_of "two")); [|by vm_compute].
  apply (CH_add _ _ _ _ (create_sr 8 false false true) [] pts_one (args_of "one")); [apply CH_new|by vm_compute]. Qed.
Example run_2_clean : sr_clean env_s (only_args "mean" 4) 8 false false true run_2 ct_3.
Proof. apply (CH_add _ _ _ _ run_1 ct_2 pts_three (args_of "three")); [|by vm_compute].
  apply (CH_grid _ _ _ _ sr_2 ct_2 mean_4 None); [apply sr_2_clean|done|by vm_compute]. Qed.
Definition vrun_1 := vr_run env_s vr_2 mean_4.
Definition vrun_2 := vr_add vrun_1 pts_three "three".
Example vr_2_clean P : vr_clean env_s P 16 5 false false true vr_2 ct_2.
Proof. apply (CH_add _ _ _ _ vr_1 [("one", pts_one)] pts_two (args_of "two")); [|by vm_compute].
  apply (CH_add _ _ _ _ (create_vr 16 5 false false true) [] pts_one (args_of "one")); [apply CH_new|by vm_compute]. Qed.
Example vrun_2_clean : vr_clean env_s (only_args "mean" 4) 16 5 false false true vrun_2 ct_3.
Proof. apply (CH_add _ _ _ _ vrun_1 ct_2 pts_three (args_of "three")); [|by vm_compute].
  apply (CH_grid _ _ _ _ vr_2 ct_2 mean_4 None); [apply vr_2_clean|done|by vm_compute]. Qed.
(** [run_1] gridded a second time, at 2 m; then one more sounding in the first tile. *)
Definition two_rez := sr_run env_s run_1 mean_8.
Definition two_rez_more := sr_add two_rez pts_three "three".
(** Soundings on either side of a tile edge, gridded with the counting engine, then one more. *)
Definition cube_0 := sr_add (create_sr 8 false false false) [Point 1 1 10 1 1; Point 12 4 20 1 1] "one".
Definition cube_1 := sr_run env_count cube_0 (grid_args "cube" 4 false "full").
Definition cube_2 := sr_add cube_1 [Point 8 4 30 1 1] "two".
