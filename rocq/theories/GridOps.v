(** The two kinds of tiles: SRTile, and BathyGrid as the tile of a VRGridTile (maingrid.py). *)
From Verif Require Import Py Nd Numpy Point Bin Algorithms Tile TileFail Time Meta Disk Grid GridRun GridQuery.
Open Scope Z_scope.

(** bgrid.py:961, 970, 979, 988: the points of a tile near one of the sides of its neighbour. *)
Definition t_strip (t : tile) (s : side) (buf : Q) : res (list point) :=
  match t_data t with
  | None => Raise TypeError
  | Some d =>
      Ok (filter (fun p => match s with
                           | Above => Qle_bool (inject_Z (t_max_y t) - buf) (inject_Z (py p))
                           | Right => Qle_bool (inject_Z (px p)) (inject_Z (t_min_x t) + buf)
                           | Below => Qle_bool (inject_Z (py p)) (inject_Z (t_min_y t) + buf)
                           | Left => Qle_bool (inject_Z (t_max_x t) - buf) (inject_Z (px p))
                           end = true) d)
  end.

(** bgrid.py:461-479 and tile.py. The regrid_option argument of SRTile.grid is not used. *)
Definition sr_ops : tile_ops tile := {|
  op_sr := true;
  op_build := fun m _ x y => new_tile x y (m_tile_size m) (m_backscatter m);
  op_folder := fun t => NTile (t_min_x t) (t_min_y t);
  op_add := fun t d a => Out (t_add_points t d (a_container a)) [] None;
  op_remove := fun t c => Out (t_remove_points t c) [] None;
  op_empty := t_is_empty;
  op_count := t_points_count;
  op_save := save_tile;
  op_reload := t_reload;
  op_changed := t_changed;
  op_rezs := t_resolutions;
  op_width := t_size;
  op_strip := t_strip;
  op_grid := fun e t a =>
    match t_grid e t (ga_alg a) (ga_rez a) (ga_clear a) (ga_mode a) (ga_params a) (ga_border a) with
    | Ok (t', r) => (Out t' [] None, [r])
    | Raise x => (Out (t_grid_left e t (ga_alg a) (ga_rez a) (ga_clear a) (ga_mode a) (ga_params a)) [] (Some x), [])
    end;
  op_density_rez := fun e t => t_resolution_by_density e t None None;
  op_probe := fun t => Ok (negb (bool_decide (length (t_cells t) = 0%nat)));
  op_get_layer := fun e t layer r nodata up => t_get_layers_by_name e t layer (Some r) nodata up;
  op_geo := t_get_geotransform;
  op_layer_names := t_layer_names;
  op_first_layers := fun t => Ok (match t_cells t with [] => None | (_, l) :: _ => Some (dkeys l) end);
  op_cell_count := t_cell_count;
  op_density_count := t_density_count;
  op_density_sqm := t_density_per_square_meter;
  op_coverage := t_coverage_area;
  op_layer_values := t_return_layer_values |}.

(** maingrid.py:37-61, 95-119 and bgrid.py:652-653: an empty sub-grid with fixed extents; the
    backscatter flag is not handed down. *)
Definition sub_meta (m : gmeta) (x y : Z) : gmeta :=
  new_meta x y (m_subtile_size m) 0 false false (NTile x y) true (m_zarr m)
    (Some (Ext x y (x + m_tile_size m) (y + m_tile_size m))).

Section grid_ops.
  Context {T : Type} (O : tile_ops T).

  (** bgrid.py:964-966 and similar: every sub-tile's strip; an empty location has no [data]. *)
  Definition g_strip (g : grid T) (s : side) (buf : Q) : res (list point) :=
    match g_tiles g with
    | None => Raise AttributeError
    | Some a => let* l := rmap (fun t => let* t := rofopt t AttributeError in op_strip O t s buf) (nflat a) in
                Ok (concat l)
    end.

  (** bgrid.py:121-125: the last live sub-tile of the first tile. *)
  Definition g_probe (g : grid T) : res bool :=
    match last (live_tiles g) with Some t => op_probe O t | None => Raise AttributeError end.

  (** bgrid.py:848-851: the first array of the nested query. *)
  Definition g_get_layer (e : env) (g : grid T) (layer : string) (r : Z) (nodata : cell) (up : bool)
      : res (grid T * option arr) :=
    let* go := g_get_layers_by_name O e g [layer] (Some r) nodata up in
    match go.2 with
    | None => Ok (go.1, None)
    | Some l => let* a := rofopt (head l) IndexError in Ok (go.1, Some a)
    end.

  Definition grid_ops : tile_ops (grid T) := {|
    op_sr := false;
    op_build := fun m disk x y => new_grid_obj (sub_meta m x y) disk;
    op_folder := fun g => m_name (g_meta g);
    op_add := fun g d a => g_add_points O g (GoodData d) a;
    op_remove := g_remove_points O;
    op_empty := g_is_empty;
    op_count := g_points_count O;
    op_save := fun _ _ => [];
    op_reload := fun _ g => g;
    op_changed := g_changed O;
    op_rezs := fun g => m_rezs (g_meta g);
    op_width := fun g => default 0 (m_width (g_meta g));
    op_strip := g_strip;
    op_grid := fun e g a => let r := g_grid O e g a None in (r, m_rezs (g_meta (st_of r)));
    op_density_rez := fun e g => g_resolution_by_density O e g;
    op_probe := g_probe;
    op_get_layer := g_get_layer;
    op_geo := fun g r => match m_ext (g_meta g) with Some x => Some (x0 x, r, y1 x) | None => None end;
    op_layer_names := g_layer_names O;
    op_first_layers := fun g =>
      match m_ntiles (g_meta g) with
      | Some n => if 0 <? n then first_found (map (op_first_layers O) (live_tiles g)) else Ok None
      | None => Raise TypeError
      end;
    op_cell_count := g_cell_count O;
    op_density_count := g_density_count O;
    op_density_sqm := g_density_per_square_meter O;
    op_coverage := g_coverage_area O;
    op_layer_values := g_return_layer_values O |}.
End grid_ops.

(** The grids a user creates (convenience.py:107-148): SRGrid, VRGridTile and their zarr versions. *)
Notation sr_grid := (grid tile).
Notation vr_grid := (grid (grid tile)).
Definition vr_ops : tile_ops sr_grid := grid_ops sr_ops.
Definition create_sr (size : Z) (backscatter zarr disk : bool) : sr_grid :=
  new_grid_obj (new_sr_meta 0 0 size backscatter zarr) disk.
Definition create_vr (size sub : Z) (backscatter zarr disk : bool) : vr_grid :=
  new_grid_obj (new_vr_meta 0 0 size sub backscatter zarr) disk.
