(** Vocabulary for what queries and exports change (C105). *)
From Verif Require Import Py Nd Numpy Point Tile Meta Grid GridRun GridQuery GridOps Export Views Spec TileExec GridExec.
Open Scope Z_scope.

(** The layers that gridding makes. *)
Definition gridded_layers : list string :=
  ["depth"; "intensity"; "density"; "vertical_uncertainty"; "horizontal_uncertainty"; "total_uncertainty"; "hypothesis_count"; "hypothesis_ratio"].
(** [t'] differs from [t] in layers of other names at most. *)
Record extra_layers (t t' : tile) : Prop := {
  el_place : t_min_x t' = t_min_x t /\ t_min_y t' = t_min_y t /\ t_size t' = t_size t /\ t_backscatter t' = t_backscatter t;
  el_points : t_data t' = t_data t /\ t_container t' = t_container t /\ t_indices t' = t_indices t;
  el_edges : t_edges_x t' = t_edges_x t /\ t_edges_y t' = t_edges_y t;
  el_run : t_algorithm t' = t_algorithm t /\ t_params t' = t_params t /\ t_changed t' = t_changed t;
  el_rezs : t_resolutions t' = t_resolutions t;
  el_layers : forall r name, name ∈ gridded_layers -> layer_of t' r name = layer_of t r name;
  el_more : forall r name, is_Some (layer_of t r name) -> is_Some (layer_of t' r name) }.
(** [g'] differs from [g] in its tiles at most, which are related by [R] place by place. *)
Record same_but {T} (R : T -> T -> Prop) (g g' : grid T) : Prop := {
  sb_meta : g_meta g' = g_meta g; sb_geom : g_geom g' = g_geom g; sb_mask : g_mask g' = g_mask g; sb_disk : g_disk g' = g_disk g;
  sb_shape : option_map (fun a => (nrows a, ncols a, length (nflat a))) (g_tiles g') = option_map (fun a => (nrows a, ncols a, length (nflat a))) (g_tiles g);
  sb_tiles : forall k, option_relation R (fun _ => False) (fun _ => False) (tile_at g k) (tile_at g' k) }.
(** [g'] is the grid after a query or an export of [g]; [ls] are the layers asked for by name, for csv files those of
    return_layer_names. *)
Inductive queried {T} (O : tile_ops T) (e : env) (g : grid T) : list string -> grid T -> Prop :=
  | Q_layers ls rez nodata up g' o : g_get_layers_by_name O e g ls rez nodata up = Ok (g', o) -> queried O e g ls g'
  | Q_trimmed ls rez nodata up g' o : g_get_layers_trimmed O e g ls rez nodata up = Ok (g', o) -> queried O e g ls g'
  | Q_boundaries ls rez nodata g' o : g_surf_boundaries O e g ls rez nodata = Ok (g', o) -> queried O e g ls g'
  | Q_nodes ls rez nodata g' o : g_surf_nodes O e g ls rez nodata = Ok (g', o) -> queried O e g ls g'
  | Q_values x y l rez nodata g' o : g_layer_values_at O e g x y l rez nodata = Ok (g', o) -> queried O e g [l] g'
  | Q_chunks r ls nodata up mx gdal g' o : g_get_chunks_of_tiles O e g r ls nodata up mx gdal = Ok (g', o) -> queried O e g ls g'
  | Q_tiles rez ls nodata up g' o : g_get_tiles_by_resolution O e g rez ls nodata up = Ok (g', o) -> queried O e g ls g'
  | Q_geotiff up rez mx g' o : export_geotiff O e g up rez mx = Ok (g', o) -> queried O e g [] g'
  | Q_bag rez mx vert g' o : export_bag O e g rez mx vert = Ok (g', o) -> queried O e g [] g'
  | Q_csv up rez ls g' o : g_return_layer_names O g = Ok ls -> export_csv O e g up rez = Ok (g', o) -> queried O e g ls g'.
