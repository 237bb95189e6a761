(** Saving and loading tiles, stale grids, interrupted saves: C54, C55, C59, C60. *)
From Verif Require Import Py Nd Numpy Point Bin Algorithms Tile Time Meta Disk Grid GridRun GridQuery GridOps Export
  Spec TileExec GridExec Store StoreExec Samples GridSamples PyFacts FsFacts TileStoreFacts CrashFacts.
Open Scope Z_scope.

(** ** C54 *)
(** Whatever the folder held before, a new tile loaded from it is the saved one. *)
Theorem C54_save_load F t : plain_tile t ->
  exists t', load_sr_tile (fs_run F (save_tile (Some t) SaveAll)) = Ok (Some t') /\ same_tile t t'.
Proof. intros H. apply load_stored, saved_stored; [done|]. split; by intros. Qed.
(** The tiles a grid makes are of this kind, when they hold points. *)
Theorem C54_reachable e x y s b t F : 0 < s -> tile_reach false e x y s b t -> is_Some (t_data t) ->
  exists t', load_sr_tile (fs_run F (save_tile (Some t) SaveAll)) = Ok (Some t') /\ same_tile t t'.
Proof. intros Hs H Hd. apply C54_save_load. by eapply reach_plain. Qed.
(** Saving only the grids (points) keeps the points (grids) that an earlier save stored. *)
Theorem C54_only_grid F t m : plain_tile t -> (exists t0, load_sr_tile F = Ok (Some t0) /\ t_data t0 = t_data t) -> m = SaveGrid ->
  exists t', load_sr_tile (fs_run F (save_tile (Some t) m)) = Ok (Some t') /\ same_tile t t'.
Proof.
  intros H (t0 & H0 & Hd) ->. apply load_stored, saved_stored; [done|]. split; [|done]. intros _. destruct (load_data _ _ H0) as (d & H1 & H2). exists d. split; [congruence|done].
Qed.
(** The tile in memory that is read back after a save is as the model of the grid has it (Disk.v [t_reload]). *)
Theorem C54_reload F t : plain_tile t -> load_tile (fs_run F (save_tile (Some t) SaveAll)) [] (Some t) SaveAll = Ok (Some (t_reload SaveAll t)).
Proof. intros H. apply reload_is_load; [done|]. apply saved_stored; [done|]. split; by intros. Qed.

(** A tile with two resolutions, gridded with two algorithms, saved over another tile. *)
Definition gridded_of (r : res (tile * Z)) : tile := match r with Ok (t, _) => t | Raise _ => tile_s end.
Definition tile_4 := gridded_of (t_grid env_s tile_s "mean" (Some 4) false "depth" None None).
Definition tile_84 := gridded_of (t_grid env_s tile_4 "shoalest" (Some 8) false "depth" None None).
Definition other_folder : fs := fs_run [] (save_tile (Some tile_4) SaveAll).
Example tile_84_reach : tile_reach false env_s 0 0 8 false tile_84.
Proof.
  apply (TR_grid _ _ _ _ _ _ tile_4 "shoalest" (Some 8) false "depth" None None _ 8); [|by repeat constructor|by right|vm_compute; reflexivity].
  apply (TR_grid _ _ _ _ _ _ tile_s "mean" (Some 4) false "depth" None None _ 4); [|by repeat constructor|by right|vm_compute; reflexivity].
  apply TR_add; [apply TR_add; [apply TR_new|]|]; repeat constructor; cbn; lia.
Qed.
Example tile_84_plain : plain_tile tile_84 /\ t_resolutions tile_84 = [4; 8].
Proof. split; [apply (reach_plain env_s 0 0 8 false); [done|apply tile_84_reach|apply (bool_decide_unpack _); vm_compute; exact I]|vm_compute; reflexivity]. Qed.
Example tile_84_back : exists t', load_sr_tile (fs_run other_folder (save_tile (Some tile_84) SaveAll)) = Ok (Some t') /\ same_tile tile_84 t'.
Proof. apply C54_save_load, tile_84_plain. Qed.

(** ** C55 *)
(** A tile gridded with clear_existing and then saved (with or without its points) is loaded with that one
    resolution, whatever its folder [F] held before. *)
Theorem C55_only_new q e x y s b t alg ro mode gp border t' r m F :
  0 < s -> tile_reach q e x y s b t -> alg ∈ ["mean"; "shoalest"; "cube"] ->
  t_grid e t alg ro true mode gp border = Ok (t', r) -> m <> SavePoints ->
  (m = SaveGrid -> dget F [FData] = Some (File (LPoints (default [] (t_data t'))))) ->
  exists t'', load_sr_tile (fs_run F (save_tile (Some t') m)) = Ok (Some t'') /\ (forall r', r' ∈ dkeys (t_cells t'') <-> r' = r) /\
    forall name, layer_of t'' r name = layer_of t' r name.
Proof.
  intros Hs H HA Hg Hm HF. destruct (clear_grid_plain _ _ _ _ _ _ _ _ _ _ _ _ _ _ Hs H HA Hg) as [HP HK].
  destruct (load_stored (fs_run F (save_tile (Some t') m)) t') as (t'' & H1 & H2).
  { apply saved_stored; [done|]. split; [|by destruct m]. intros Em. destruct (pt_data _ HP) as [d Hd]. exists d. split; [done|].
    unfold leaf_at. rewrite HF by (by destruct m). by rewrite Hd. }
  exists t''. split; [done|]. split; [|intros name; apply H2]. intros r'. rewrite (st_rezs _ _ H2), HK. apply elem_of_list_singleton.
Qed.
(** Without clearing, the old resolutions stay, as intended. *)
Example old_grids_gone :
  let t' := gridded_of (t_grid env_s tile_84 "mean" (Some 2) true "depth" None None) in
  let F := fs_run [] (save_tile (Some tile_84) SaveAll) in
  listed_rezs (fs_listdir F []) = [4; 8] /\ listed_rezs (fs_listdir (fs_run F (save_tile (Some t') SaveGrid)) []) = [2] /\
  dget F [FData] = Some (File (LPoints (default [] (t_data t')))).
Proof. vm_compute. by repeat split. Qed.

(** ** C59 *)
(** The process dies while saving or clearing the tile at (x, y): what any other tile is loaded as, and the
    arrays and metadata of the grid, are as they were. *)
Theorem C59_other_tiles f f' x y t m : crashed f (prims_in (FFolder (NTile x y)) (save_tile t m)) f' ->
  (forall x' y', (x', y') <> (x, y) -> load_sr_tile (fsub f' (FFolder (NTile x' y'))) = load_sr_tile (fsub f (FFolder (NTile x' y')))) /\
  dget f' [FMeta] = dget f [FMeta] /\ forall key, dget f' [FGridArray key] = dget f [FGridArray key].
Proof.
  intros H. split; [|split].
  - intros x' y' Hne. assert (Hn : FFolder (NTile x y) <> FFolder (NTile x' y')) by (intros [= -> ->]; done). by rewrite (crash_out _ _ _ _ _ Hn H).
  - by eapply crash_top; [|exact H].
  - intros key. by eapply crash_top; [|exact H].
Qed.
(** Saving the tile at (8, 0) of a grid with three tiles is interrupted while the points are written. *)
Definition three_tiles : fs := fs_run [] (ev_of (g_add_points sr_ops (create_sr 8 false false true) (GoodData pts_one) (args_of "one"))).
Definition save_84 : list prim := prims_in (FFolder (NTile 8 0)) (save_tile (Some tile_84) SaveAll).
Definition half_written : fs := dset (fs_run three_tiles (take 3 save_84)) [FFolder (NTile 8 0); FData] (File LTorn).
Example half_written_crash : crashed three_tiles save_84 half_written.
Proof. apply (crash_in_step _ 3 (PWrite [FFolder (NTile 8 0); FData] (LPoints (default [] (t_data tile_84))))); [vm_compute; reflexivity|reflexivity]. Qed.
Example half_written_loads :
  load_sr_tile (fsub half_written (FFolder (NTile 8 0))) = Raise FileNotFoundError /\
  load_sr_tile (fsub half_written (FFolder (NTile 0 0))) = load_sr_tile (fsub three_tiles (FFolder (NTile 0 0))) /\
  match load_sr_tile (fsub half_written (FFolder (NTile 0 0))) with Ok (Some t) => t_points_count t | _ => 0%nat end = 2%nat.
Proof. vm_compute. by repeat split. Qed.

(** ** C60 *)
(** Points of two saves are never mixed: if the tile can be loaded, its points are the old or the new ones.
    Saving only the grids does not touch the points. What is missing: the points can be lost. *)
Theorem C60_old_or_new_partial F t m F' : crashed F (save_tile (Some t) m) F' ->
  (forall t', load_sr_tile F' = Ok (Some t') ->
     t_data t' = Some (default [] (t_data t)) \/ exists d, dget F [FData] = Some (File (LPoints d)) /\ t_data t' = Some d) /\
  (m = SaveGrid -> dget F' [FData] = dget F [FData]).
Proof.
  intros H. destruct (crash_points _ _ _ _ H) as [H1 H2]. split; [|intros ->; by apply H1].
  intros t' Hl. destruct (load_data _ _ Hl) as (d & Hd & HF). unfold leaf_at in HF. destruct H2 as [H2|[H2|H2]].
  - right. exists d. split; [congruence|done].
  - left. unfold leaf_at in H2. congruence.
  - by destruct (H2 d).
Qed.
(** An array is removed before it is written again: dying in between loses the points, old and new. *)
Theorem C60_points_lost_refuted : exists F t0 t F', plain_tile t0 /\ plain_tile t /\
  load_sr_tile F = Ok (Some t0) /\ crashed F (save_tile (Some t) SavePoints) F' /\ load_sr_tile F' = Raise FileNotFoundError.
Proof.
  exists other_folder, tile_4, (t_add_points tile_4 [pt_a] "three"), (fs_run other_folder (take 3 (save_tile (Some (t_add_points tile_4 [pt_a] "three")) SavePoints))).
  assert (HR : tile_reach false env_s 0 0 8 false tile_4).
  { apply (TR_grid _ _ _ _ _ _ tile_s "mean" (Some 4) false "depth" None None _ 4); [|by repeat constructor|by right|vm_compute; reflexivity].
    apply TR_add; [apply TR_add; [apply TR_new|]|]; repeat constructor; cbn; lia. }
  split; [apply (reach_plain env_s 0 0 8 false); [done|exact HR|apply (bool_decide_unpack _); vm_compute; exact I]|].
  split; [apply (reach_plain env_s 0 0 8 false); [done|apply TR_add; [exact HR|repeat constructor; cbn; lia]|apply (bool_decide_unpack _); vm_compute; exact I]|].
  split; [vm_compute; reflexivity|]. split; [|vm_compute; reflexivity].
  apply crash_prefix.
Qed.
Print Assumptions C54_save_load.
Print Assumptions C54_reachable.
Print Assumptions C54_only_grid.
Print Assumptions C54_reload.
Print Assumptions C55_only_new.
Print Assumptions C59_other_tiles.
Print Assumptions C60_old_or_new_partial.
Print Assumptions C60_points_lost_refuted.
