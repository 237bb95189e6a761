(** What it means that a folder holds a tile or a grid, and executions of a grid with an output folder. *)
From Verif Require Import Py Nd Numpy Point Bin Algorithms Tile Time Meta Disk Grid GridRun GridQuery GridOps Export Spec GridExec Store.
Open Scope Z_scope.

(** ** Tiles *)
(** The layers the gridding algorithms make (tile.py:316-340). *)
Definition standard_layers : list string :=
  ["depth"; "intensity"; "density"; "vertical_uncertainty"; "horizontal_uncertainty"; "total_uncertainty"; "hypothesis_count"; "hypothesis_ratio"].
(** A tile with points, whose dictionaries have one entry per key, and whose gridded resolutions have edges,
    cell indices, and at least one layer, all of them standard. *)
Record plain_tile (t : tile) : Prop := {
  pt_data : is_Some (t_data t);
  pt_cells : NoDup (dkeys (t_cells t));
  pt_indices : NoDup (dkeys (t_indices t));
  pt_gridded : forall r, r ∈ dkeys (t_cells t) ->
    is_Some (dget (t_edges_x t) r) /\ is_Some (dget (t_edges_y t) r) /\ is_Some (dget (t_indices t) r) /\
    exists name, is_Some (layer_of t r name);
  pt_layers : forall r name, is_Some (layer_of t r name) -> name ∈ standard_layers }.
(** The same tile as far as dictionaries can tell. *)
Record same_tile (t t' : tile) : Prop := {
  st_min_x : t_min_x t' = t_min_x t; st_min_y : t_min_y t' = t_min_y t; st_size : t_size t' = t_size t;
  st_backscatter : t_backscatter t' = t_backscatter t; st_data : t_data t' = t_data t;
  st_container : t_container t' = t_container t; st_algorithm : t_algorithm t' = t_algorithm t;
  st_params : t_params t' = t_params t; st_changed : t_changed t' = t_changed t;
  st_rezs : forall r, r ∈ dkeys (t_cells t') <-> r ∈ dkeys (t_cells t);
  st_layers : forall r name, layer_of t' r name = layer_of t r name;
  st_edges_x : forall r, r ∈ dkeys (t_cells t) -> dget (t_edges_x t') r = dget (t_edges_x t) r;
  st_edges_y : forall r, r ∈ dkeys (t_cells t) -> dget (t_edges_y t') r = dget (t_edges_y t) r;
  st_indices : forall r, r ∈ dkeys (t_cells t) -> dget (t_indices t') r = dget (t_indices t) r }.

(** ** Grids *)
(** Histories of a single resolution grid with an output folder: adding and removing points and gridding,
    where every call returned normally. The folder is empty at first and changes by the steps of the calls. *)
Inductive stored_history (e : env) (size : Z) (backscatter zarr : bool) : sr_grid -> fs -> Prop :=
  | SH_new : stored_history e size backscatter zarr (create_sr size backscatter zarr true) []
  | SH_add g f d a :
      stored_history e size backscatter zarr g f ->
      let r := g_add_points sr_ops g (GoodData d) a in
      exn_of r = None -> stored_history e size backscatter zarr (st_of r) (fs_run f (ev_of r))
  | SH_remove g f c :
      stored_history e size backscatter zarr g f ->
      let r := g_remove_points sr_ops g c in
      exn_of r = None -> stored_history e size backscatter zarr (st_of r) (fs_run f (ev_of r))
  | SH_grid g f a dask :
      stored_history e size backscatter zarr g f -> known_args a ->
      let r := g_grid sr_ops e g a dask in
      exn_of r = None -> stored_history e size backscatter zarr (st_of r) (fs_run f (ev_of r)).

(** The grid [g'] has the tiles of [g] in the same places. *)
Definition same_tiles {T} (R : T -> T -> Prop) (g g' : grid T) : Prop :=
  (forall x y t, has_tile g x y t -> exists t', has_tile g' x y t' /\ R t t') /\
  (forall x y t', has_tile g' x y t' -> exists t, has_tile g x y t).

(** The same sub-grid. *)
Definition same_sub (g g' : sr_grid) : Prop :=
  g_geom g' = g_geom g /\ g_meta g' = g_meta g /\ same_tiles same_tile g g'.

(** Histories as in [clean_history], without queries. *)
Inductive update_history {T} (O : tile_ops T) (e : env) (P : gargs -> Prop) (g0 : grid T) : grid T -> content -> Prop :=
  | UH_new : update_history O e P g0 g0 []
  | UH_add g ct d a :
      update_history O e P g0 g ct -> exn_of (g_add_points O g (GoodData d) a) = None ->
      update_history O e P g0 (st_of (g_add_points O g (GoodData d) a)) (ct ++ [(a_container a, d)])
  | UH_add_failed g ct inp a :
      update_history O e P g0 g ct -> exn_of (g_add_points O g inp a) <> None ->
      update_history O e P g0 (st_of (g_add_points O g inp a)) ct
  | UH_remove g ct c :
      update_history O e P g0 g ct -> exn_of (g_remove_points O g c) = None ->
      update_history O e P g0 (st_of (g_remove_points O g c)) (drop_c ct c)
  | UH_grid g ct a dask :
      update_history O e P g0 g ct -> P a -> exn_of (g_grid O e g a dask) = None ->
      update_history O e P g0 (st_of (g_grid O e g a dask)) ct.
