(** C61: the names of folders and files. *)
From Verif Require Import Py Nd Numpy Point Bin Algorithms Tile Time Meta Disk Names Grid GridRun GridOps Convenience FolderSpec Spec TileExec GridExec StoreExec
  NamesFacts GridInvFacts GridStoreFacts GridReachFacts GridVrFacts Samples GridSamples.
Open Scope Z_scope.

(** Different locations have different folder names, for every text of numbers that tells numbers apart, has no
    '_' and begins with a digit or '-' (python's repr of finite floats has these properties; -0.0 is not
    modelled). *)
Theorem C61_text repr x y x' y' : good_repr repr -> tile_text repr x y = tile_text repr x' y' -> x = x' /\ y = y'.
Proof. intros H. apply (tile_text_inj repr H). Qed.
(** The text that python gives for multiples of 0.25 is such a text. *)
Theorem C61_quarters : good_repr repr_quarters.
Proof. exact repr_quarters_ok. Qed.
(** In a grid that holds points after any calls, different places of the tile array have different folder names: tiles of single
    resolution grids and sub-grids of variable resolution grids. *)
Theorem C61_sr repr e size b zarr disk g ct j k x y x' y' : good_repr repr -> 0 < size -> update_history sr_ops e known_args (create_sr size b zarr disk) g ct -> ct <> [] ->
  origin_at g j = Some (x, y) -> origin_at g k = Some (x', y') -> j <> k -> text repr (FFolder (NTile x y)) <> text repr (FFolder (NTile x' y')).
Proof.
  intros Hr Hs H Hct Hj Hk Hne E. apply (tile_text_inj repr Hr) in E as [-> ->]. apply Hne.
  destruct (update_inv e known_args size b zarr disk Hs (fun _ h => h) g ct H) as (_ & seen & ok & [_ [(_ & E & _)|(_ & lx & ly & nx & ny & a & P & _)]]).
  - done.
  - exact (std_distinct g lx ly size nx ny Hs (pl_geom _ _ _ _ _ _ _ _ _ P) j k _ Hj Hk).
Qed.
Theorem C61_vr repr e size sub b zarr disk g ct j k x y x' y' : good_repr repr -> 0 < size -> 0 < sub -> update_history vr_ops e known_args (create_vr size sub b zarr disk) g ct -> ct <> [] ->
  origin_at g j = Some (x, y) -> origin_at g k = Some (x', y') -> j <> k -> text repr (FFolder (NTile x y)) <> text repr (FFolder (NTile x' y')).
Proof.
  intros Hr Hs Hsub H Hct Hj Hk Hne E. apply (tile_text_inj repr Hr) in E as [-> ->]. apply Hne.
  destruct (vr_update_inv e known_args size sub b zarr disk Hs Hsub (fun _ h => h) g ct H) as (_ & seen & ok & [_ [(_ & E & _)|(_ & lx & ly & nx & ny & a & P & _)]]).
  - done.
  - exact (std_distinct g lx ly size nx ny Hs (pl_geom _ _ _ _ _ _ _ _ _ P) j k _ Hj Hk).
Qed.
(** The other names in a grid folder and in a tile folder differ too, so that one array never overwrites
    another; and the tests that the code makes on the names ([fldr[:4] == 'cell'], split('_')) tell the same
    as the model's kinds of names. *)
Theorem C61_grid_entries repr n m : good_repr repr -> grid_entry n -> grid_entry m -> text repr n = text repr m -> n = m.
Proof. intros H. apply (grid_text_inj repr H). Qed.
Theorem C61_tile_entries repr n m : good_repr repr -> tile_entry n -> tile_entry m -> text repr n = text repr m -> n = m.
Proof. intros H. apply (tile_entry_inj repr H). Qed.
Theorem C61_cell_test repr n : tile_entry n -> starts_cell (text repr n) = is_cell_entry n.
Proof. apply starts_cell_entry. Qed.
Theorem C61_resolution repr float_of n : good_repr repr -> (forall r, float_of (repr r) = Some r) -> tile_entry n ->
  resolution_in float_of (text repr n) = match n with FCells r _ => Some r | _ => None end.
Proof. intros H. apply (resolution_text repr H). Qed.

Example texts_1 :
  map repr_quarters [0; 4096; -4096; 1; -1; 402; 7] = ["0.0"; "1024.0"; "-1024.0"; "0.25"; "-0.25"; "100.5"; "1.75"] /\
  text repr_quarters (FFolder (NTile 4096 (-2))) = "1024.0_-0.5" /\ text repr_quarters (FCells 2 "vertical_uncertainty") = "cells_0.5_vertical_uncertainty" /\
  text repr_quarters (FIndices 8) = "cell_2.0_indices" /\ starts_cell "cell_2.0_indices" = true /\ starts_cell "data" = false /\
  resolution_in (fun s => if decide (s = "0.5") then Some 2 else None) "cells_0.5_vertical_uncertainty" = Some 2.
Proof. repeat split; vm_compute; reflexivity. Qed.
Example origins_1 : update_history sr_ops env_s known_args (create_sr 8 false false true) sr_1 [("one", pts_one)] /\
  exists j k x y x' y', j <> k /\ origin_at sr_1 j = Some (x, y) /\ origin_at sr_1 k = Some (x', y').
Proof.
  split; [apply (UH_add _ _ _ _ _ [] pts_one (args_of "one")); [apply UH_new|vm_compute; reflexivity]|].
  exists 0%nat, 1%nat, 0, 0, 8, 0. split; [done|]. split; vm_compute; reflexivity.
Qed.

Print Assumptions C61_text.
Print Assumptions C61_quarters.
Print Assumptions C61_sr.
Print Assumptions C61_vr.
Print Assumptions C61_grid_entries.
Print Assumptions C61_tile_entries.
Print Assumptions C61_cell_test.
Print Assumptions C61_resolution.
