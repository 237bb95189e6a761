(** Saving grids that hold no soundings: C138. *)
From Verif Require Import Py Nd Numpy Point Bin Algorithms Tile Time Meta Disk Grid GridRun GridQuery GridOps Export
  Spec TileExec GridExec Store StoreExec Samples GridSamples GridPropFacts GridHistFacts EmptySaveFacts Properties_Grid.
Open Scope Z_scope.

(** ** C138: false; save goes through the tiles, which are None in a grid without soundings *)
(** After any calls save fails exactly for the grids without soundings. The folder that the failed save leaves loads, when no tile
    folders were in it, as a grid with the same attributes and no tiles. *)
Theorem C138_sr_partial e size b zarr disk g ct seen ok :
  0 < size -> sr_history e size b zarr disk g ct seen ok ->
  (ct <> [] -> exn_of (save_sr_to g) = None) /\
  (ct = [] -> exn_of (save_sr_to g) = Some AttributeError /\
     forall F ge, g_geom g = Some ge -> (forall x y, fs_exists F [FFolder (NTile x y)] = false) ->
       exists g', load_sr (fs_run F (ev_of (save_sr_to g))) = Ok g' /\ g_geom g' = g_geom g /\ g_meta g' = loaded_meta (g_meta g) /\ forall x y t, ~ has_tile g' x y t).
Proof.
  intros Hs H. pose proof (sr_inv e size b zarr disk Hs _ _ _ _ H) as HI. pose proof (save_exn_spec _ _ _ _ _ _ HI) as HE. split.
  - intros Hne. cbn. by rewrite HE, bool_decide_eq_false_2.
  - intros ->. split; [cbn; by rewrite HE|]. intros F ge Hg HF. apply (empty_loads load_sr_tile _ g ge F); try done.
    + intros f Hf. unfold load_sr_tile, load_tile. by rewrite Hf.
    + by destruct HI as [_ [(E & _)|(? & _)]].
Qed.
Theorem C138_vr_partial e size sub b zarr disk g ct seen ok :
  0 < size -> 0 < sub -> vr_history e size sub b zarr disk g ct seen ok ->
  (ct <> [] -> exn_of (save_vr_to g) = None) /\
  (ct = [] -> exn_of (save_vr_to g) = Some AttributeError /\
     forall F ge, g_geom g = Some ge -> (forall x y, fs_exists F [FFolder (NTile x y)] = false) ->
       exists g', load_vr (fs_run F (ev_of (save_vr_to g))) = Ok g' /\ g_geom g' = g_geom g /\ g_meta g' = loaded_meta (g_meta g) /\ forall x y t, ~ has_tile g' x y t).
Proof.
  intros Hs Hsub H. pose proof (vr_inv e size sub b zarr disk Hs Hsub _ _ _ _ H) as HI. pose proof (save_exn_spec _ _ _ _ _ _ HI) as HE. split.
  - intros Hne. cbn. by rewrite HE, bool_decide_eq_false_2.
  - intros ->. split; [cbn; by rewrite HE|]. intros F ge Hg HF. apply (empty_loads load_sub _ g ge F); try done.
    + intros f Hf. unfold load_sub. by rewrite Hf.
    + by destruct HI as [_ [(E & _)|(? & _)]].
Qed.
(** A grid that lost all its soundings, saved to the folder to which it was saved before: save fails, the attributes in the folder
    are those of the grid without containers, and the soundings that were removed are loaded again. *)
Theorem C138_refuted : exists g F g' t,
  sr_history env_s 8 false false true g [] [] false /\ F = fs_run [] (ev_of (save_sr_to sr_2)) /\
  exn_of (save_sr_to g) = Some AttributeError /\ load_sr (fs_run F (ev_of (save_sr_to g))) = Ok g' /\
  m_container (g_meta g') = [] /\ m_ntiles (g_meta g') = Some 0 /\ has_tile g' 0 0 t /\ t_points_count t <> 0%nat.
Proof.
  set (F := fs_run [] (ev_of (save_sr_to sr_2))). set (g' := match load_sr (fs_run F (ev_of (save_sr_to sr_emptied))) with Ok g => g | Raise _ => sr_2 end).
  set (k := 5%nat). set (t := default (new_tile 0 0 0 false) (tile_at g' k)).
  exists sr_emptied, F, g', t. split; [apply sr_emptied_history|]. split; [reflexivity|]. split; [vm_compute; reflexivity|]. split; [vm_compute; reflexivity|].
  split; [vm_compute; reflexivity|]. split; [vm_compute; reflexivity|]. split; [exists k; split; vm_compute; reflexivity|]. vm_compute. discriminate.
Qed.

Print Assumptions C138_sr_partial.
Print Assumptions C138_vr_partial.
Print Assumptions C138_refuted.

(** The same grid saved to a new folder: save fails, and the folder loads as a grid with twelve locations and no tiles. *)
Example C138_case :
  exn_of (save_sr_to sr_2) = None /\ is_Some (g_geom sr_emptied) /\ exn_of (save_sr_to sr_emptied) = Some AttributeError /\
  match load_sr (fs_run [] (ev_of (save_sr_to sr_emptied))) with Ok g => length (omap id (default [] (nflat <$> g_tiles g))) = 0%nat /\ length (default [] (nflat <$> g_tiles g)) = 12%nat | Raise _ => False end.
Proof. split; [vm_compute; reflexivity|]. split; [vm_compute; eexists; reflexivity|]. split; [vm_compute; reflexivity|]. vm_compute. split; reflexivity. Qed.
