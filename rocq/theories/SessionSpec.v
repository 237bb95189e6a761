(** Work on a grid in several sessions: between them it is saved to a folder and loaded again. *)
From Verif Require Import Py Nd Numpy Point Bin Algorithms Tile Time Meta Disk Grid GridRun GridQuery GridOps Spec GridExec Store StoreExec.
Open Scope Z_scope.

(** The calls made at a single resolution grid from its creation on: adding points (returning or not), removing points and gridding
    with arguments that satisfy [P] (both returning), saving to any folder, and saving to any folder with any content [F] and
    continuing with the grid loaded from there. The grid was created with or without an output folder. *)
Inductive sr_sessions (e : env) (P : gargs -> Prop) (size : Z) (backscatter zarr : bool) : sr_grid -> content -> Prop :=
  | SS_new disk : sr_sessions e P size backscatter zarr (create_sr size backscatter zarr disk) []
  | SS_add g ct d a :
      sr_sessions e P size backscatter zarr g ct -> exn_of (g_add_points sr_ops g (GoodData d) a) = None ->
      sr_sessions e P size backscatter zarr (st_of (g_add_points sr_ops g (GoodData d) a)) (ct ++ [(a_container a, d)])
  | SS_add_failed g ct inp a :
      sr_sessions e P size backscatter zarr g ct -> exn_of (g_add_points sr_ops g inp a) <> None ->
      sr_sessions e P size backscatter zarr (st_of (g_add_points sr_ops g inp a)) ct
  | SS_remove g ct c :
      sr_sessions e P size backscatter zarr g ct -> exn_of (g_remove_points sr_ops g c) = None ->
      sr_sessions e P size backscatter zarr (st_of (g_remove_points sr_ops g c)) (drop_c ct c)
  | SS_grid g ct a dask :
      sr_sessions e P size backscatter zarr g ct -> P a -> exn_of (g_grid sr_ops e g a dask) = None ->
      sr_sessions e P size backscatter zarr (st_of (g_grid sr_ops e g a dask)) ct
  | SS_save g ct :
      sr_sessions e P size backscatter zarr g ct -> exn_of (save_sr_to g) = None ->
      sr_sessions e P size backscatter zarr (st_of (save_sr_to g)) ct
  | SS_load g ct F g' :
      sr_sessions e P size backscatter zarr g ct -> exn_of (save_sr_to g) = None ->
      load_sr (fs_run F (ev_of (save_sr_to g))) = Ok g' ->
      sr_sessions e P size backscatter zarr g' ct.

(** The same for a variable resolution grid. Saving does not delete the folder of a sub-grid that no longer exists (C77), so the folder
    it is saved to has none at the places where the grid has no sub-grid. *)
Inductive vr_sessions (e : env) (P : gargs -> Prop) (size sub : Z) (backscatter zarr : bool) : vr_grid -> content -> Prop :=
  | VS_new disk : vr_sessions e P size sub backscatter zarr (create_vr size sub backscatter zarr disk) []
  | VS_add g ct d a :
      vr_sessions e P size sub backscatter zarr g ct -> exn_of (g_add_points vr_ops g (GoodData d) a) = None ->
      vr_sessions e P size sub backscatter zarr (st_of (g_add_points vr_ops g (GoodData d) a)) (ct ++ [(a_container a, d)])
  | VS_add_failed g ct inp a :
      vr_sessions e P size sub backscatter zarr g ct -> exn_of (g_add_points vr_ops g inp a) <> None ->
      vr_sessions e P size sub backscatter zarr (st_of (g_add_points vr_ops g inp a)) ct
  | VS_remove g ct c :
      vr_sessions e P size sub backscatter zarr g ct -> exn_of (g_remove_points vr_ops g c) = None ->
      vr_sessions e P size sub backscatter zarr (st_of (g_remove_points vr_ops g c)) (drop_c ct c)
  | VS_grid g ct a dask :
      vr_sessions e P size sub backscatter zarr g ct -> P a -> exn_of (g_grid vr_ops e g a dask) = None ->
      vr_sessions e P size sub backscatter zarr (st_of (g_grid vr_ops e g a dask)) ct
  | VS_save g ct :
      vr_sessions e P size sub backscatter zarr g ct -> exn_of (save_vr_to g) = None ->
      vr_sessions e P size sub backscatter zarr (st_of (save_vr_to g)) ct
  | VS_load g ct F g' :
      vr_sessions e P size sub backscatter zarr g ct -> exn_of (save_vr_to g) = None ->
      (forall k x y, origin_at g k = Some (x, y) -> tile_at g k = None -> fs_exists F [FFolder (NTile x y)] = false) ->
      load_vr (fs_run F (ev_of (save_vr_to g))) = Ok g' ->
      vr_sessions e P size sub backscatter zarr g' ct.

(** The calls made at a single resolution grid with an output folder, which is empty at first and changes by the steps of the calls: adding
    points, removing points and gridding with arguments that satisfy [P], all returning normally; and continuing with the grid loaded
    from the folder, when it has soundings and the number of tiles kept in the folder is the current one. *)
Inductive own_sessions (e : env) (P : gargs -> Prop) (size : Z) (backscatter zarr : bool) : sr_grid -> fs -> content -> Prop :=
  | OS_new : own_sessions e P size backscatter zarr (create_sr size backscatter zarr true) [] []
  | OS_add g f ct d a :
      own_sessions e P size backscatter zarr g f ct ->
      let r := g_add_points sr_ops g (GoodData d) a in
      exn_of r = None -> own_sessions e P size backscatter zarr (st_of r) (fs_run f (ev_of r)) (ct ++ [(a_container a, d)])
  | OS_remove g f ct c :
      own_sessions e P size backscatter zarr g f ct ->
      let r := g_remove_points sr_ops g c in
      exn_of r = None -> own_sessions e P size backscatter zarr (st_of r) (fs_run f (ev_of r)) (drop_c ct c)
  | OS_grid g f ct a dask :
      own_sessions e P size backscatter zarr g f ct -> P a ->
      let r := g_grid sr_ops e g a dask in
      exn_of r = None -> own_sessions e P size backscatter zarr (st_of r) (fs_run f (ev_of r)) ct
  | OS_load g f ct g' :
      own_sessions e P size backscatter zarr g f ct -> ct <> [] -> load_sr f = Ok g' ->
      m_ntiles (g_meta g') = m_ntiles (g_meta g) -> own_sessions e P size backscatter zarr g' f ct.
