(** Executions of a tile: what a caller can do with it. *)
From Verif Require Import Py Nd Numpy Point Bin Algorithms Tile Disk Spec.
Open Scope Z_scope.

(** Not switching between CUBE and the other algorithms on a tile that already has grids
    (BathyGrid.grid enforces this, bgrid.py:1417-1421). *)
Definition same_kind (old : option string) (alg : string) : Prop :=
  match old with None => True | Some a0 => a0 = "cube" <-> alg = "cube" end.

(** Tiles reachable from an empty tile with lower left corner (x, y) and side [s] by adding points
    that lie in the tile, removing containers, gridding, saving to disk and reading back and, when [q]
    is true, querying layers. *)
Inductive tile_reach (q : bool) (e : env) (x y s : Z) (b : bool) : tile -> Prop :=
  | TR_new : tile_reach q e x y s b (new_tile x y s b)
  | TR_add t d c :
      tile_reach q e x y s b t -> Forall (fun p => in_square x y s (px p) (py p)) d ->
      tile_reach q e x y s b (t_add_points t d c)
  | TR_remove t c :
      tile_reach q e x y s b t -> tile_reach q e x y s b (t_remove_points t c)
  | TR_grid t alg ro clear mode gp border t' r :
      tile_reach q e x y s b t -> alg ∈ ["mean"; "shoalest"; "cube"] ->
      (clear = true \/ same_kind (t_algorithm t) alg) ->
      t_grid e t alg ro clear mode gp border = Ok (t', r) -> tile_reach q e x y s b t'
  | TR_query t layer ro nodata up t' o :
      tile_reach q e x y s b t -> q = true ->
      t_get_layers_by_name e t layer ro nodata up = Ok (t', o) -> tile_reach q e x y s b t'
  | TR_reload t m : tile_reach q e x y s b t -> tile_reach q e x y s b (t_reload m t).

(** Adding and removing only. *)
Inductive tile_op := TAdd (d : list point) (c : string) | TRemove (c : string).
Definition run_tile_op (t : tile) (o : tile_op) : tile :=
  match o with TAdd d c => t_add_points t d c | TRemove c => t_remove_points t c end.
(** What the tile should hold afterwards. *)
Definition held_op (ct : content) (o : tile_op) : content :=
  match o with TAdd d c => put_c ct c d | TRemove c => drop_c ct c end.

(** A history of a tile with the containers it should hold and whether add_points was called or a
    container removed since it was last gridded. *)
Inductive tile_history (e : env) (x y s : Z) (b : bool) : tile -> content -> bool -> Prop :=
  | TH_new : tile_history e x y s b (new_tile x y s b) [] false
  | TH_add t ct f d c :
      tile_history e x y s b t ct f -> Forall (fun p => in_square x y s (px p) (py p)) d ->
      tile_history e x y s b (t_add_points t d c) (put_c ct c d) true
  | TH_remove t ct f c :
      tile_history e x y s b t ct f ->
      tile_history e x y s b (t_remove_points t c) (drop_c ct c) (f || bool_decide (c ∈ ct.*1))
  | TH_grid t ct f alg ro clear mode gp border t' r :
      tile_history e x y s b t ct f -> alg ∈ ["mean"; "shoalest"; "cube"] ->
      (clear = true \/ same_kind (t_algorithm t) alg) ->
      t_grid e t alg ro clear mode gp border = Ok (t', r) -> tile_history e x y s b t' ct false
  | TH_query t ct f layer ro nodata up t' o :
      tile_history e x y s b t ct f ->
      t_get_layers_by_name e t layer ro nodata up = Ok (t', o) -> tile_history e x y s b t' ct f
  | TH_reload t ct f m : tile_history e x y s b t ct f -> tile_history e x y s b (t_reload m t) ct f.
