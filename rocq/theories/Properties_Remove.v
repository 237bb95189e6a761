(** Removing a container touches only the tiles that hold its soundings: C135. *)
From Verif Require Import Py Nd Numpy Point Bin Algorithms Tile Time Meta Disk Grid GridRun GridQuery GridOps Spec GridExec RemoveSpec Samples GridSamples RemoveFacts.
Open Scope Z_scope.

(** ** C135 *)
Theorem C135_sr e size b zarr disk g ct seen ok c :
  0 < size -> sr_history e size b zarr disk g ct seen ok -> exn_of (g_remove_points sr_ops g c) = None ->
  let here x y p := in_square x y size (px p) (py p) in
  removed g (st_of (g_remove_points sr_ops g c)) (fun x y => filter (here x y) (of_container ct c)) (fun x y => filter (here x y) (all_points (drop_c ct c)))
    (fun x y t t' => lost t c (filter (here x y) (all_points (drop_c ct c))) t').
Proof. apply sr_removed. Qed.
(** For variable resolution the same is true inside every sub-grid that has soundings of the container and others. *)
Theorem C135_vr e size sub b zarr disk g ct seen ok c :
  0 < size -> 0 < sub -> vr_history e size sub b zarr disk g ct seen ok -> exn_of (g_remove_points vr_ops g c) = None ->
  let here x y p := in_square x y size (px p) (py p) in
  let both x y u v p := in_square x y size (px p) (py p) /\ in_square u v sub (px p) (py p) in
  removed g (st_of (g_remove_points vr_ops g c)) (fun x y => filter (here x y) (of_container ct c)) (fun x y => filter (here x y) (all_points (drop_c ct c)))
    (fun x y sg sg' => removed sg sg' (fun u v => filter (both x y u v) (of_container ct c)) (fun u v => filter (both x y u v) (all_points (drop_c ct c)))
      (fun u v t t' => lost t c (filter (both x y u v) (all_points (drop_c ct c))) t')).
Proof. apply vr_removed. Qed.
Print Assumptions C135_sr.
Print Assumptions C135_vr.

(** Of the tiles of a gridded grid one is as before, one loses a sounding and keeps its depths, one is gone. *)
Definition less_two := st_of (g_remove_points sr_ops run_1 "two").
Definition tile_of (g : sr_grid) (x y : Z) : option tile :=
  match g_tiles g with Some a => head (filter (fun t => t_min_x t = x /\ t_min_y t = y) (omap id (nflat a))) | None => None end.
Example C135_case : exn_of (g_remove_points sr_ops run_1 "two") = None /\
  tile_of less_two 0 0 = tile_of run_1 0 0 /\ tile_of run_1 0 0 <> None /\
  option_map t_data (tile_of run_1 8 0) <> option_map t_data (tile_of less_two 8 0) /\
  option_map (fun t => layer_of t 4 "depth") (tile_of run_1 8 0) = option_map (fun t => layer_of t 4 "depth") (tile_of less_two 8 0) /\
  tile_of less_two 8 0 <> None /\ tile_of run_1 (-8) (-8) <> None /\ tile_of less_two (-8) (-8) = None.
Proof. split; [vm_compute; reflexivity|]. split; [vm_compute; reflexivity|]. split; [vm_compute; discriminate|]. split; [vm_compute; discriminate|].
  split; [vm_compute; reflexivity|]. split; [vm_compute; discriminate|]. split; [vm_compute; discriminate|]. vm_compute. reflexivity. Qed.
