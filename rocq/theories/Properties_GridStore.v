(** Grids with an output folder: C56, C57, C58, C67, C76, C77. *)
From Verif Require Import Py Nd Numpy Point Bin Algorithms Tile Time Meta Disk Grid GridRun GridQuery GridOps Export
  Spec TileExec GridExec Store StoreExec Samples GridSamples PyFacts FsFacts TileStoreFacts GridLoadFacts GridReachFacts GridVrFacts.
Open Scope Z_scope.

(** ** C56 *)
(** After any calls that return normally, the folder (when something was written) loads as a grid with the
    same tiles, and with the same attributes except for the two of C57. *)
Theorem C56_reload e size b zarr g f : 0 < size -> stored_history e size b zarr g f -> f <> [] ->
  exists g', load_sr f = Ok g' /\ same_tiles same_tile g g' /\
    g_geom g' = g_geom g /\ m_container (g_meta g') = m_container (g_meta g) /\ m_timestamp (g_meta g') = m_timestamp (g_meta g) /\
    m_epsg (g_meta g') = m_epsg (g_meta g) /\ m_vref (g_meta g') = m_vref (g_meta g) /\
    g_meta g = g_meta g' <| m_ntiles := m_ntiles (g_meta g) |> <| m_mean_depth := m_mean_depth (g_meta g) |>.
Proof.
  intros Hs H Hf. destruct (stored_load e size b zarr g f Hs H Hf) as (g' & n & q & H1 & H2 & H3 & _ & _ & H4).
  exists g'. split; [done|]. split; [done|]. split; [done|]. rewrite H3. by cbn.
Qed.
(** Something is written by the first add_points. *)
Theorem C56_written e size b zarr g f d a : 0 < size -> stored_history e size b zarr g f ->
  exn_of (g_add_points sr_ops g (GoodData d) a) = None -> fs_run f (ev_of (g_add_points sr_ops g (GoodData d) a)) <> [].
Proof. intros Hs H Hx E. destruct (add_stale e size b zarr g f d a Hs H Hx) as (g' & H1 & _). rewrite E in H1. done. Qed.

(** Two containers, gridding, then the removal of the first container, which empties a tile. *)
Definition steps_1 := g_add_points sr_ops (create_sr 8 false false true) (GoodData pts_one) (args_of "one").
Definition steps_2 := g_add_points sr_ops (st_of steps_1) (GoodData pts_two) (args_of "two").
Definition steps_3 := g_grid sr_ops env_s (st_of steps_2) mean_4 None.
Definition steps_4 := g_remove_points sr_ops (st_of steps_3) "one".
Definition folder_1 := fs_run [] (ev_of steps_1).
Definition folder_2 := fs_run folder_1 (ev_of steps_2).
Definition folder_3 := fs_run folder_2 (ev_of steps_3).
Definition folder_4 := fs_run folder_3 (ev_of steps_4).
Example stored_1 : stored_history env_s 8 false false (st_of steps_1) folder_1.
Proof. apply (SH_add _ _ _ _ _ _ pts_one (args_of "one")); [apply SH_new|vm_compute; reflexivity]. Qed.
Example stored_2 : stored_history env_s 8 false false (st_of steps_2) folder_2.
Proof. apply (SH_add _ _ _ _ _ _ pts_two (args_of "two")); [apply stored_1|vm_compute; reflexivity]. Qed.
Example stored_3 : stored_history env_s 8 false false (st_of steps_3) folder_3.
Proof. apply (SH_grid _ _ _ _ _ _ mean_4 None); [apply stored_2|by repeat constructor|vm_compute; reflexivity]. Qed.
Example stored_4 : stored_history env_s 8 false false (st_of steps_4) folder_4.
Proof. apply (SH_remove _ _ _ _ _ _ "one"); [apply stored_3|vm_compute; reflexivity]. Qed.
Definition loaded {T} (g0 : grid T) (r : res (grid T)) : grid T := match r with Ok g => g | Raise _ => g0 end.
Definition origins_of {T} (g : grid T) : list (option (Z * Z)) :=
  imap (fun k (t : option T) => match t with Some _ => origin_at g k | None => None end) (match g_tiles g with Some a => nflat a | None => [] end).
Example stored_4_tiles : length folder_4 = 27%nat /\
  origins_of (loaded sr_1 (load_sr folder_3)) = [Some (-8, -8); None; None; None; None; Some (0, 0); Some (8, 0); None; None; None; None; None] /\
  origins_of (loaded sr_1 (load_sr folder_4)) = [Some (-8, -8); None; None; None; None; None; Some (8, 0); None; None; None; None; None].
Proof. vm_compute. repeat split; reflexivity. Qed.
Print Assumptions C56_reload.
Print Assumptions C56_written.

(** ** C57 *)
(** False: add_points writes the attributes before it updates these two. *)
Theorem C57_refuted : exists e size b zarr g f d a g', 0 < size /\ stored_history e size b zarr g f /\
  let r := g_add_points sr_ops g (GoodData d) a in exn_of r = None /\ load_sr (fs_run f (ev_of r)) = Ok g' /\
  m_ntiles (g_meta g') <> m_ntiles (g_meta (st_of r)) /\ ~ (m_mean_depth (g_meta g') == m_mean_depth (g_meta (st_of r)))%Q.
Proof.
  exists env_s, 8, false, false, (st_of steps_1), folder_1, pts_two, (args_of "two"), (loaded sr_1 (load_sr folder_2)).
  split; [done|]. split; [apply stored_1|]. cbv zeta. split; [vm_compute; reflexivity|]. split; [vm_compute; reflexivity|].
  split; [vm_compute; discriminate|]. apply (Qeq_bool_neq). vm_compute. reflexivity.
Qed.
(** What the folder holds after add_points are the values from before the call. *)
Theorem C57_stale_partial e size b zarr g f d a : 0 < size -> stored_history e size b zarr g f ->
  let r := g_add_points sr_ops g (GoodData d) a in exn_of r = None ->
  exists g', load_sr (fs_run f (ev_of r)) = Ok g' /\ m_ntiles (g_meta g') = m_ntiles (g_meta g) /\ m_mean_depth (g_meta g') = m_mean_depth (g_meta g).
Proof. apply add_stale. Qed.
(** After grid(), and after the removal of a known container, the folder holds all the attributes. *)
Theorem C57_after_grid_partial e size b zarr g f a dask : 0 < size -> stored_history e size b zarr g f -> known_args a ->
  let r := g_grid sr_ops e g a dask in exn_of r = None ->
  exists g', load_sr (fs_run f (ev_of r)) = Ok g' /\ g_meta g' = g_meta (st_of r).
Proof. intros Hs H Ha r Hx. destruct (grid_current e size b zarr g f a dask Hs H Ha Hx) as (g' & H1 & _ & H2 & _). eauto. Qed.
Theorem C57_after_remove_partial e size b zarr g f c : 0 < size -> stored_history e size b zarr g f -> c ∈ dkeys (m_container (g_meta g)) ->
  let r := g_remove_points sr_ops g c in exn_of r = None ->
  exists g', load_sr (fs_run f (ev_of r)) = Ok g' /\ g_meta g' = g_meta (st_of r).
Proof. intros Hs H Ha r Hx. destruct (remove_current e size b zarr g f c Hs H Ha Hx) as (g' & H1 & _ & H2 & _). eauto. Qed.
Example stale_counts :
  m_ntiles (g_meta (loaded sr_1 (load_sr folder_2))) = Some 2 /\ m_ntiles (g_meta (st_of steps_2)) = Some 3 /\
  m_ntiles (g_meta (loaded sr_1 (load_sr folder_3))) = Some 3 /\ m_ntiles (g_meta (loaded sr_1 (load_sr folder_4))) = Some 2 /\
  exn_of steps_3 = None /\ exn_of steps_4 = None /\ dkeys (m_container (g_meta (st_of steps_3))) = ["one"; "two"].
Proof. vm_compute. repeat split; reflexivity. Qed.
Print Assumptions C57_refuted.
Print Assumptions C57_stale_partial.
Print Assumptions C57_after_grid_partial.
Print Assumptions C57_after_remove_partial.

(** ** C58 *)
(** Soundings in two sub-grids; the second container is removed again. *)
Definition pts_far := [Point 20 1 30 1 1].
Definition vsteps_1 := g_add_points vr_ops (create_vr 16 8 false false true) (GoodData pts_one) (args_of "one").
Definition vsteps_2 := g_add_points vr_ops (st_of vsteps_1) (GoodData pts_far) (args_of "far").
Definition vsteps_3 := g_remove_points vr_ops (st_of vsteps_2) "far".
Definition vfolder_2 := fs_run (fs_run [] (ev_of vsteps_1)) (ev_of vsteps_2).
Definition vfolder := fs_run vfolder_2 (ev_of vsteps_3).
(** False: the folder of the emptied sub-grid is not removed, and a grid loaded later has an empty sub-grid
    there. Such a grid can not be gridded. *)
Theorem C58_refuted : exists g f g' e a, g = st_of vsteps_3 /\ exn_of vsteps_1 = None /\ exn_of vsteps_2 = None /\ exn_of vsteps_3 = None /\
  f = fs_run (fs_run (fs_run [] (ev_of vsteps_1)) (ev_of vsteps_2)) (ev_of vsteps_3) /\ load_vr f = Ok g' /\
  (exists k, origin_at g k = Some (16, 0) /\ tile_at g k = None) /\ (exists sg, has_tile g' 16 0 sg) /\
  exn_of (g_grid vr_ops e g a None) = None /\ exn_of (g_grid vr_ops e g' a None) = Some ValueError.
Proof.
  set (g' := loaded vr_1 (load_vr vfolder)).
  exists (st_of vsteps_3), vfolder, g', env_s, mean_4. split; [reflexivity|]. split; [vm_compute; reflexivity|]. split; [vm_compute; reflexivity|].
  split; [vm_compute; reflexivity|]. split; [reflexivity|]. split; [vm_compute; reflexivity|].
  split; [exists 1%nat; split; vm_compute; reflexivity|].
  split; [|split; vm_compute; reflexivity].
  exists (match tile_at g' 1 with Some sg => sg | None => sr_1 end). exists 1%nat. split; vm_compute; reflexivity.
Qed.
(** Single resolution grids reload without phantom tiles. *)
Theorem C58_sr_partial e size b zarr g f x y t' g' : 0 < size -> stored_history e size b zarr g f -> load_sr f = Ok g' ->
  has_tile g' x y t' -> exists t, has_tile g x y t /\ same_tile t t'.
Proof.
  intros Hs H HL Ht. assert (Hf : f <> []) by (intros ->; done). destruct (stored_load e size b zarr g f Hs H Hf) as (g2 & n & q & H1 & H2 & _ & _ & _ & H3 & H4).
  rewrite HL in H1. injection H1 as <-. destruct (H4 x y t' Ht) as (t & Hg). exists t. split; [done|].
  destruct (H3 x y t Hg) as (t2 & Ht2 & HS). destruct Ht as (k & O1 & T1), Ht2 as (j & O2 & T2).
  assert (j = k) as ->; [|congruence]. eapply (stored_distinct e size b zarr g f Hs H); unfold origin_at in *; rewrite <- H2; [exact O2|exact O1].
Qed.
Example emptied_tile : exists t, has_tile (st_of steps_3) 0 0 t /\ origins_of (loaded sr_1 (load_sr folder_4)) !! 5%nat = Some None.
Proof. exists (default tile_s (tile_at (st_of steps_3) 5)). split; [exists 5%nat; split; vm_compute; reflexivity|vm_compute; reflexivity]. Qed.
Print Assumptions C58_refuted.
Print Assumptions C58_sr_partial.

(** ** C67 *)
(** After grid() returns normally each tile of a single resolution grid has a resolution, and each of its
    resolutions has the layer of its kind and not the one of the other kind. *)
Theorem C67_sr_partial e size b zarr disk g ct a dask x y t :
  0 < size -> update_history sr_ops e known_args (create_sr size b zarr disk) g ct -> known_args a ->
  let g' := st_of (g_grid sr_ops e g a dask) in exn_of (g_grid sr_ops e g a dask) = None -> has_tile g' x y t ->
  t_cells t <> [] /\ forall r, r ∈ dkeys (t_cells t) ->
    if b then is_Some (layer_of t r "intensity") /\ layer_of t r "depth" = None
    else is_Some (layer_of t r "depth") /\ layer_of t r "intensity" = None.
Proof.
  intros Hs H Ha g' Hx (k & _ & Ht). split; [eapply (update_gridded e known_args); try done|].
  assert (H' : update_history sr_ops e known_args (create_sr size b zarr disk) g' ct) by (by apply UH_grid).
  intros r Hr. destruct (update_layers e known_args size b zarr disk Hs (fun _ h => h) g' ct k t r H' Ht Hr). by destruct b.
Qed.
(** The layers of a variable resolution grid are those of depths, with or without the flag. *)
Theorem C67_vr_depth_partial e size sub b zarr disk g ct j sg k t r :
  0 < size -> 0 < sub -> update_history vr_ops e known_args (create_vr size sub b zarr disk) g ct ->
  tile_at g j = Some sg -> tile_at sg k = Some t -> r ∈ dkeys (t_cells t) ->
  is_Some (layer_of t r "depth") /\ layer_of t r "intensity" = None.
Proof. intros Hs Hsub. apply (vr_update_layers e known_args size sub b zarr disk Hs Hsub (fun _ h => h)). Qed.
(** So the property is false of them: the sub-grids are made without the flag. *)
Definition vr_back := vr_add (create_vr 16 8 true false false) pts_one "one".
Theorem C67_vr_refuted : exists e g a sg t r, g = vr_back /\ m_backscatter (g_meta g) = true /\
  exn_of (g_grid vr_ops e g a None) = None /\ has_tile (st_of (g_grid vr_ops e g a None)) 0 0 sg /\ has_tile sg 0 0 t /\
  layer_of t r "intensity" = None /\ is_Some (layer_of t r "depth").
Proof.
  set (g' := vr_run env_s vr_back mean_4). set (sg := default sr_1 (tile_at g' 0)). set (t := default tile_s (tile_at sg 0)).
  exists env_s, vr_back, mean_4, sg, t, 4. split; [reflexivity|]. split; [vm_compute; reflexivity|]. split; [vm_compute; reflexivity|].
  split; [exists 0%nat; split; vm_compute; reflexivity|]. split; [exists 0%nat; split; vm_compute; reflexivity|].
  split; [vm_compute; reflexivity|]. apply (bool_decide_unpack _). vm_compute. exact I.
Qed.
Definition sr_back := sr_add (create_sr 8 true false false) pts_one "one".
Example back_layers : update_history sr_ops env_s known_args (create_sr 8 true false false) sr_back [("one", pts_one)] /\
  exn_of (g_grid sr_ops env_s sr_back mean_4 None) = None /\
  t_layer_names (default tile_s (tile_at (sr_run env_s sr_back mean_4) 0)) = ["intensity"; "density"; "vertical_uncertainty"; "horizontal_uncertainty"].
Proof. split; [apply (UH_add _ _ _ _ _ [] pts_one (args_of "one")); [apply UH_new|vm_compute; reflexivity]|]. split; vm_compute; reflexivity. Qed.
Print Assumptions C67_sr_partial.
Print Assumptions C67_vr_depth_partial.
Print Assumptions C67_vr_refuted.

(** ** C76 *)
(** False: save() without a path writes nothing, also when the folder is out of date. *)
Theorem C76_refuted : exists e size b zarr g f g', 0 < size /\ stored_history e size b zarr g f /\
  exn_of (save_no_path g) = None /\ load_sr (fs_run f (ev_of (save_no_path g))) = Ok g' /\ m_ntiles (g_meta g') <> m_ntiles (g_meta g).
Proof.
  exists env_s, 8, false, false, (st_of steps_2), folder_2, (loaded sr_1 (load_sr folder_2)).
  split; [done|]. split; [apply stored_2|]. split; [reflexivity|]. split; vm_compute; [reflexivity|discriminate].
Qed.
(** With the path of the output folder everything is written. *)
Theorem C76_own_path_partial e size b zarr g ct f : 0 < size -> update_history sr_ops e known_args (create_sr size b zarr true) g ct -> ct <> [] ->
  exn_of (save_sr_to g) = None /\ exists g', load_sr (fs_run f (ev_of (save_sr_to g))) = Ok g' /\ g_meta g' = g_meta g /\ same_tiles same_tile g g'.
Proof.
  intros Hs H Hc. destruct (update_save e known_args size b zarr true Hs (fun _ h => h) g ct f H Hc) as (H1 & g' & H2 & _ & H3 & H4). eauto 6.
Qed.
Example own_path : update_history sr_ops env_s known_args (create_sr 8 false false true) (st_of steps_2) [("one", pts_one); ("two", pts_two)] /\
  m_ntiles (g_meta (loaded sr_1 (load_sr (fs_run folder_2 (ev_of (save_sr_to (st_of steps_2))))))) = Some 3.
Proof.
  split; [|vm_compute; reflexivity].
  apply (UH_add _ _ _ _ (st_of steps_1) [("one", pts_one)] pts_two (args_of "two")); [|vm_compute; reflexivity].
  apply (UH_add _ _ _ _ _ [] pts_one (args_of "one")); [apply UH_new|vm_compute; reflexivity].
Qed.
Print Assumptions C76_refuted.
Print Assumptions C76_own_path_partial.

(** ** C77 *)
(** A single resolution grid that holds points, saved to a folder with any content (for instance an older
    save of another grid), is loaded from it as it was in memory. *)
Theorem C77_sr_save_load_partial e size b zarr disk g ct F : 0 < size -> update_history sr_ops e known_args (create_sr size b zarr disk) g ct -> ct <> [] ->
  exn_of (save_sr_to g) = None /\ exists g', load_sr (fs_run F (ev_of (save_sr_to g))) = Ok g' /\
    g_geom g' = g_geom g /\ g_meta g' = g_meta g /\ same_tiles same_tile g g'.
Proof. intros Hs. apply (update_save e known_args size b zarr disk Hs (fun _ h => h)). Qed.
(** A variable resolution grid, when the folder has no sub-grid at a location where the grid has none. *)
Theorem C77_vr_save_load_partial e size sub b zarr disk g ct F : 0 < size -> 0 < sub ->
  update_history vr_ops e known_args (create_vr size sub b zarr disk) g ct -> ct <> [] ->
  (forall k x y, origin_at g k = Some (x, y) -> tile_at g k = None -> fs_exists F [FFolder (NTile x y)] = false) ->
  exn_of (save_vr_to g) = None /\ exists g', load_vr (fs_run F (ev_of (save_vr_to g))) = Ok g' /\
    g_geom g' = g_geom g /\ g_meta g' = g_meta g /\ same_tiles same_sub g g'.
Proof. intros Hs Hsub. apply (vr_update_save e known_args size sub b zarr disk Hs Hsub (fun _ h => h)). Qed.
(** False of a variable resolution grid saved to the folder of another one, where the sub-grids that it does
    not have remain with their soundings (the loop clears folders of these names beside the root folder). *)
Definition vr_new := create_vr 16 8 false false false.
Definition vr_far := vr_add (vr_add vr_new pts_one "one") pts_far "far".
Definition vr_near := vr_add (vr_add vr_new pts_one "one") [Point 20 17 9 1 1] "near".
Definition far_folder := fs_run [] (ev_of (save_vr_to vr_far)).
Theorem C77_vr_refuted : exists g F g' sg t, g = vr_near /\ F = fs_run [] (ev_of (save_vr_to vr_far)) /\ exn_of (save_vr_to g) = None /\
  load_vr (fs_run F (ev_of (save_vr_to g))) = Ok g' /\ (exists k, origin_at g k = Some (16, 0) /\ tile_at g k = None) /\
  has_tile g' 16 0 sg /\ has_tile sg 16 0 t /\ t_data t = Some pts_far.
Proof.
  set (g' := loaded vr_1 (load_vr (fs_run far_folder (ev_of (save_vr_to vr_near))))). set (sg := default sr_1 (tile_at g' 1)). set (t := default tile_s (tile_at sg 0)).
  exists vr_near, far_folder, g', sg, t. split; [reflexivity|]. split; [reflexivity|]. split; [reflexivity|]. split; [vm_compute; reflexivity|].
  split; [exists 1%nat; split; vm_compute; reflexivity|]. split; [exists 1%nat; split; vm_compute; reflexivity|].
  split; [exists 0%nat; split; vm_compute; reflexivity|vm_compute; reflexivity].
Qed.
(** A variable resolution grid with an empty location, saved to an empty folder. *)
Example near_saved : update_history vr_ops env_s known_args vr_new vr_near [("one", pts_one); ("near", [Point 20 17 9 1 1])] /\
  origins_of vr_near = [Some (0, 0); None; None; Some (16, 16)] /\
  origins_of (loaded vr_1 (load_vr (fs_run [] (ev_of (save_vr_to vr_near))))) = origins_of vr_near.
Proof.
  split; [|split; vm_compute; reflexivity].
  apply (UH_add _ _ _ _ (vr_add vr_new pts_one "one") [("one", pts_one)] [Point 20 17 9 1 1] (args_of "near")); [|vm_compute; reflexivity].
  apply (UH_add _ _ _ _ _ [] pts_one (args_of "one")); [apply UH_new|vm_compute; reflexivity].
Qed.
(** A single resolution grid saved over another one. *)
Definition other_save := fs_run [] (ev_of (save_sr_to run_2)).
Example saved_over : update_history sr_ops env_s known_args (create_sr 8 false false true) sr_1 [("one", pts_one)] /\
  length other_save = 37%nat /\
  origins_of (loaded run_1 (load_sr (fs_run other_save (ev_of (save_sr_to sr_1))))) = origins_of sr_1.
Proof.
  split; [apply (UH_add _ _ _ _ _ [] pts_one (args_of "one")); [apply UH_new|vm_compute; reflexivity]|].
  split; vm_compute; reflexivity.
Qed.
Print Assumptions C77_sr_save_load_partial.
Print Assumptions C77_vr_save_load_partial.
Print Assumptions C77_vr_refuted.
