(** A loaded grid is exported like the saved grid: rasters C133, csv files C134. *)
From Verif Require Import Py Nd Numpy Point Bin Algorithms Tile Time Meta Disk Grid GridRun GridQuery GridOps Export Views Spec GridExec Store StoreExec SessionSpec
  LoadAnswerSpec LayerNameSpec Samples GridSamples LoadAnswerFacts LoadExportFacts Properties_GridStore Properties_Sessions Properties_VrSessions.
Open Scope Z_scope.

(** ** C133 *)
(** A grid with any history, gridded anew, saved to a folder with any content. *)
Theorem C133_sr e size b zarr g ct a dask F :
  0 < size -> sr_sessions e known_args size b zarr g ct -> known_args a -> ga_clear a = true -> exn_of (g_grid sr_ops e g a dask) = None ->
  let h := st_of (g_grid sr_ops e g a dask) in exists h', load_sr (fs_run F (ev_of (save_sr_to h))) = Ok h' /\
    (forall up rez max_chunk, same_query h h' (export_geotiff sr_ops e h up rez max_chunk) (export_geotiff sr_ops e h' up rez max_chunk)) /\
    forall rez max_chunk v, same_query h h' (export_bag sr_ops e h rez max_chunk v) (export_bag sr_ops e h' rez max_chunk v).
Proof.
  intros Hs H Ha Hc Hx h. destruct (sr_again e size b zarr g ct a dask F Hs H Ha Hc Hx) as (h' & L1 & L2 & L3 & N1 & N2 & _). fold h in L1, L2, L3, N1. exists h'. split; [done|].
  assert (E : raster_names (g_layer_names sr_ops h') = raster_names (g_layer_names sr_ops h)) by (rewrite N1, N2; by apply raster_stored).
  split; intros; apply rrel_same_query; [by apply geotiff_alike|by apply bag_alike].
Qed.
(** For variable resolution, when the folder has no sub-grid at a place where the grid has none (see C77). *)
Theorem C133_vr e size sub b zarr g ct a dask F :
  0 < size -> 0 < sub -> vr_sessions e known_args size sub b zarr g ct -> known_args a -> ga_clear a = true -> exn_of (g_grid vr_ops e g a dask) = None ->
  let h := st_of (g_grid vr_ops e g a dask) in
  (forall k x y, origin_at h k = Some (x, y) -> tile_at h k = None -> fs_exists F [FFolder (NTile x y)] = false) ->
  exists h', load_vr (fs_run F (ev_of (save_vr_to h))) = Ok h' /\
    (forall up rez max_chunk, same_query h h' (export_geotiff vr_ops e h up rez max_chunk) (export_geotiff vr_ops e h' up rez max_chunk)) /\
    forall rez max_chunk v, same_query h h' (export_bag vr_ops e h rez max_chunk v) (export_bag vr_ops e h' rez max_chunk v).
Proof.
  intros Hs Hsub H Ha Hc Hx h HF. destruct (vr_again e size sub b zarr g ct a dask F Hs Hsub H Ha Hc Hx HF) as (h' & d & L1 & L2 & L3 & N1 & N2 & _). fold h in L1, L2, L3, N1. exists h'. split; [done|].
  assert (E : raster_names (g_layer_names vr_ops h') = raster_names (g_layer_names vr_ops h)) by (rewrite N1, N2; by apply raster_stored).
  split; intros; apply rrel_same_query; [by apply geotiff_alike|by apply bag_alike].
Qed.
(** A grid with an output folder, loaded from it after gridding anew. *)
Theorem C133_own e size b zarr g f ct a dask :
  0 < size -> own_sessions e known_args size b zarr g f ct -> known_args a -> ga_clear a = true -> exn_of (g_grid sr_ops e g a dask) = None ->
  let h := st_of (g_grid sr_ops e g a dask) in exists h', load_sr (fs_run f (ev_of (g_grid sr_ops e g a dask))) = Ok h' /\
    (forall up rez max_chunk, same_query h h' (export_geotiff sr_ops e h up rez max_chunk) (export_geotiff sr_ops e h' up rez max_chunk)) /\
    forall rez max_chunk v, same_query h h' (export_bag sr_ops e h rez max_chunk v) (export_bag sr_ops e h' rez max_chunk v).
Proof.
  intros Hs H Ha Hc Hx h. destruct (own_again e size b zarr g f ct a dask Hs H Ha Hc Hx) as (h' & L1 & L2 & L3 & N1 & N2 & _). fold h in L2, L3, N1. exists h'. split; [done|].
  assert (E : raster_names (g_layer_names sr_ops h') = raster_names (g_layer_names sr_ops h)) by (rewrite N1, N2; by apply raster_stored).
  split; intros; apply rrel_same_query; [by apply geotiff_alike|by apply bag_alike].
Qed.

(** ** C134 *)
(** For the algorithms mean and shoalest, and for CUBE if the grid had an output folder when it was gridded. The full statement, for CUBE
    in memory too, is refuted below. *)
Theorem C134_sr_partial e size b zarr g ct a dask F :
  0 < size -> sr_sessions e known_args size b zarr g ct -> known_args a -> ga_clear a = true -> exn_of (g_grid sr_ops e g a dask) = None ->
  ga_alg a <> "cube" \/ g_disk g = true ->
  let h := st_of (g_grid sr_ops e g a dask) in exists h', load_sr (fs_run F (ev_of (save_sr_to h))) = Ok h' /\
    forall up rez, same_query h h' (export_csv sr_ops e h up rez) (export_csv sr_ops e h' up rez).
Proof.
  intros Hs H Ha Hc Hx Hd h. destruct (sr_again e size b zarr g ct a dask F Hs H Ha Hc Hx) as (h' & L1 & L2 & L3 & _ & _ & N1 & N2). fold h in L1, L2, L3, N1. exists h'. split; [done|].
  rewrite stays in N2 by done. intros. apply rrel_same_query. eapply csv_alike; [done|done|exact N1|exact N2|]. intros l. apply given_standard.
Qed.
Theorem C134_vr_partial e size sub b zarr g ct a dask F :
  0 < size -> 0 < sub -> vr_sessions e known_args size sub b zarr g ct -> known_args a -> ga_clear a = true -> exn_of (g_grid vr_ops e g a dask) = None ->
  ga_alg a <> "cube" ->
  let h := st_of (g_grid vr_ops e g a dask) in
  (forall k x y, origin_at h k = Some (x, y) -> tile_at h k = None -> fs_exists F [FFolder (NTile x y)] = false) ->
  exists h', load_vr (fs_run F (ev_of (save_vr_to h))) = Ok h' /\
    forall up rez, same_query h h' (export_csv vr_ops e h up rez) (export_csv vr_ops e h' up rez).
Proof.
  intros Hs Hsub H Ha Hc Hx Hd h HF. destruct (vr_again e size sub b zarr g ct a dask F Hs Hsub H Ha Hc Hx HF) as (h' & d & L1 & L2 & L3 & _ & _ & N1 & N2). fold h in L1, L2, L3, N1. exists h'. split; [done|].
  rewrite stays in N2 by auto. intros. apply rrel_same_query. eapply csv_alike; [done|done|exact N1|exact N2|]. intros l. apply given_standard.
Qed.
(** With an output folder, for all algorithms. *)
Theorem C134_own_partial e size b zarr g f ct a dask :
  0 < size -> own_sessions e known_args size b zarr g f ct -> known_args a -> ga_clear a = true -> exn_of (g_grid sr_ops e g a dask) = None ->
  let h := st_of (g_grid sr_ops e g a dask) in exists h', load_sr (fs_run f (ev_of (g_grid sr_ops e g a dask))) = Ok h' /\
    forall up rez, same_query h h' (export_csv sr_ops e h up rez) (export_csv sr_ops e h' up rez).
Proof.
  intros Hs H Ha Hc Hx h. destruct (own_again e size b zarr g f ct a dask Hs H Ha Hc Hx) as (h' & L1 & L2 & L3 & _ & _ & N1 & N2). fold h in L2, L3, N1. exists h'. split; [done|].
  rewrite stays in N2 by auto. intros. apply rrel_same_query. eapply csv_alike; [done|done|exact N1|exact N2|]. intros l. apply given_standard.
Qed.
(** Gridded with CUBE in memory: the columns of the file of the loaded grid have another order. *)
Definition cube_fresh := st_of (g_grid sr_ops env_count cube_0 (grid_args "cube" 4 true "full") None).
Definition csv_names (x : res (sr_grid * list csv_file)) : list (list string) := match x with Ok p => map cf_names p.2 | Raise _ => [] end.
Theorem C134_refuted : exists e size b zarr g ct a dask h',
  0 < size /\ sr_sessions e known_args size b zarr g ct /\ known_args a /\ ga_clear a = true /\ exn_of (g_grid sr_ops e g a dask) = None /\
  let h := st_of (g_grid sr_ops e g a dask) in load_sr (fs_run [] (ev_of (save_sr_to h))) = Ok h' /\
    csv_names (export_csv sr_ops e h false None) = [["x"; "y"; "depth"; "density"; "hypothesis_count"; "total_uncertainty"; "hypothesis_ratio"]] /\
    csv_names (export_csv sr_ops e h' false None) = [["x"; "y"; "depth"; "density"; "total_uncertainty"; "hypothesis_count"; "hypothesis_ratio"]].
Proof.
  exists env_count, 8, false, false, cube_0, [("one", [Point 1 1 10 1 1; Point 12 4 20 1 1])], (grid_args "cube" 4 true "full"), None,
    (loaded cube_0 (load_sr (fs_run [] (ev_of (save_sr_to cube_fresh))))).
  split; [lia|]. split.
  { refine (SS_add env_count known_args 8 false false (create_sr 8 false false false) [] [Point 1 1 10 1 1; Point 12 4 20 1 1] (args_of "one") (SS_new _ _ _ _ _ false) _). vm_compute. reflexivity. }
  split; [apply (bool_decide_unpack _); vm_compute; exact I|]. split; [reflexivity|]. split; [vm_compute; reflexivity|].
  split; [|split]; vm_compute; reflexivity.
Qed.
Print Assumptions C133_sr.
Print Assumptions C133_vr.
Print Assumptions C133_own.
Print Assumptions C134_sr_partial.
Print Assumptions C134_own_partial.
Print Assumptions C134_vr_partial.
Print Assumptions C134_refuted.

(** A grid of each kind, gridded anew: the files of the loaded grid are those of the saved grid, and there are some. *)
Definition files_of {S X} (x : res (S * list X)) : list X := match x with Ok p => p.2 | Raise _ => [] end.
Definition fresh_sr := sr_run env_s sr_2 (grid_args "mean" 4 true "full").
Definition fresh_vr := vr_run env_s vday_0 (grid_args "mean" 4 true "full").
Definition again_sr := loaded sr_1 (load_sr (fs_run [] (ev_of (save_sr_to fresh_sr)))).
Definition again_vr := loaded vr_1 (load_vr (fs_run [] (ev_of (save_vr_to fresh_vr)))).
Example C133_case :
  files_of (export_geotiff sr_ops env_s again_sr false None (Some 16)) = files_of (export_geotiff sr_ops env_s fresh_sr false None (Some 16)) /\
  (0 < length (files_of (export_geotiff sr_ops env_s fresh_sr false None (Some 16%Z))))%nat /\
  files_of (export_bag vr_ops env_s again_vr None None "NOAA Chart Datum") = files_of (export_bag vr_ops env_s fresh_vr None None "NOAA Chart Datum") /\
  (0 < length (files_of (export_bag vr_ops env_s fresh_vr None None "NOAA Chart Datum")))%nat.
Proof. split; [vm_compute; reflexivity|]. split; [vm_compute; lia|]. split; [vm_compute; reflexivity|]. vm_compute. lia. Qed.
Example C134_case :
  files_of (export_csv sr_ops env_s again_sr false None) = files_of (export_csv sr_ops env_s fresh_sr false None) /\
  map cf_names (files_of (export_csv sr_ops env_s again_sr false None)) = [["x"; "y"; "depth"; "density"; "vertical_uncertainty"; "horizontal_uncertainty"]] /\
  files_of (export_csv vr_ops env_s again_vr true None) = files_of (export_csv vr_ops env_s fresh_vr true None) /\
  length (files_of (export_csv vr_ops env_s fresh_vr true None)) = 1%nat.
Proof. split; [vm_compute; reflexivity|]. split; [vm_compute; reflexivity|]. split; vm_compute; reflexivity. Qed.
(** A CUBE grid with an output folder. *)
Definition own_add := g_add_points sr_ops (create_sr 8 false false true) (GoodData [Point 1 1 10 1 1; Point 12 4 20 1 1]) (args_of "one").
Definition own_run := g_grid sr_ops env_count (st_of own_add) (grid_args "cube" 4 true "full") None.
Definition own_back := loaded cube_0 (load_sr (fs_run (fs_run [] (ev_of own_add)) (ev_of own_run))).
Example C134_own_case : exn_of own_run = None /\
  files_of (export_csv sr_ops env_count own_back true None) = files_of (export_csv sr_ops env_count (st_of own_run) true None) /\
  map cf_names (files_of (export_csv sr_ops env_count own_back true None)) = [["x"; "y"; "elevation"; "density"; "total_uncertainty"; "hypothesis_count"; "hypothesis_ratio"]] /\
  files_of (export_geotiff sr_ops env_count own_back true None None) = files_of (export_geotiff sr_ops env_count (st_of own_run) true None None) /\
  length (files_of (export_geotiff sr_ops env_count own_back true None None)) = 1%nat.
Proof. split; [vm_compute; reflexivity|]. split; [vm_compute; reflexivity|]. split; [vm_compute; reflexivity|]. split; vm_compute; reflexivity. Qed.
