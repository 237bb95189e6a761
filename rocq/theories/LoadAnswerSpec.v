(** What it means that a loaded grid answers queries like the grid that was saved (C131, C132). *)
From Verif Require Import Py Nd Numpy Point Bin Algorithms Tile Time Meta Disk Grid GridRun GridQuery GridOps Export Views StoreExec.
Open Scope Z_scope.

(** The query [x] of the grid [s] and the query [y] of the grid [s'] give the same answer and leave the grids as they are, or raise the same exception. *)
Definition same_query {S S' X} (s : S) (s' : S') (x : res (S * X)) (y : res (S' * X)) : Prop :=
  match x, y with
  | Ok (t, o), Ok (t', o') => t = s /\ t' = s' /\ o' = o
  | Raise a, Raise b => a = b
  | _, _ => False
  end.

(** Every query of standard layers, at any resolution or at none, with any nodata value and sign. *)
Record same_answers_of {T} (O : tile_ops T) (e : env) (g g' : grid T) : Prop := {
  sao_layers : forall ls rez n up, (forall l, l ∈ ls -> l ∈ standard_layers) ->
    same_query g g' (g_get_layers_by_name O e g ls rez n up) (g_get_layers_by_name O e g' ls rez n up);
  sao_trimmed : forall ls rez n up, (forall l, l ∈ ls -> l ∈ standard_layers) ->
    same_query g g' (g_get_layers_trimmed O e g ls rez n up) (g_get_layers_trimmed O e g' ls rez n up);
  sao_boundaries : forall ls rez n, (forall l, l ∈ ls -> l ∈ standard_layers) ->
    same_query g g' (g_surf_boundaries O e g ls rez n) (g_surf_boundaries O e g' ls rez n);
  sao_nodes : forall ls rez n, (forall l, l ∈ ls -> l ∈ standard_layers) ->
    same_query g g' (g_surf_nodes O e g ls rez n) (g_surf_nodes O e g' ls rez n);
  sao_tiles : forall ls rez n up, (forall l, l ∈ ls -> l ∈ standard_layers) ->
    same_query g g' (g_get_tiles_by_resolution O e g rez ls n up) (g_get_tiles_by_resolution O e g' rez ls n up);
  sao_values : forall xs ys l rez n, l ∈ standard_layers ->
    same_query g g' (g_layer_values_at_xy O e g xs ys l rez n) (g_layer_values_at_xy O e g' xs ys l rez n) }.
(** The chunks that exports write to rasters. *)
Definition same_chunks_of {T} (O : tile_ops T) (e : env) (g g' : grid T) : Prop :=
  forall ls r n up max_chunk for_gdal, (forall l, l ∈ ls -> l ∈ standard_layers) ->
    same_query g g' (g_get_chunks_of_tiles O e g r ls n up max_chunk for_gdal) (g_get_chunks_of_tiles O e g' r ls n up max_chunk for_gdal).
