(** Grids of either kind that were gridded and then asked for layers; used to state that only the soundings matter. *)
From Verif Require Import Py Nd Numpy Point Bin Algorithms Tile Time Meta Disk Grid GridRun GridQuery GridOps Export Spec TileExec GridExec WholeSpec.
Open Scope Z_scope.

(** [g'] is a grid of depths of either kind, with any tile sizes that the resolution divides, that holds the
    points [ct] after any history, was then gridded with [alg] at resolution [r], and asked for any layers since. *)
Inductive gridded (e : env) (alg : string) (r : Z) (ct : content) : forall T, tile_ops T -> grid T -> Prop :=
  | Gridded_sr size zarr disk g a dask g' :
      0 < size -> size mod r = 0 -> sr_clean e known_args size false zarr disk g ct ->
      only_args alg r a -> (ga_regrid a = "update" -> ga_clear a = true) -> exn_of (g_grid sr_ops e g a dask) = None ->
      queried sr_ops e (st_of (g_grid sr_ops e g a dask)) g' -> gridded e alg r ct tile sr_ops g'
  | Gridded_vr size sub zarr disk g a dask g' :
      0 < size -> 0 < sub -> size mod sub = 0 -> sub mod r = 0 -> vr_clean e known_args size sub false zarr disk g ct ->
      only_args alg r a -> (ga_regrid a = "update" -> ga_clear a = true) -> exn_of (g_grid vr_ops e g a dask) = None ->
      queried vr_ops e (st_of (g_grid vr_ops e g a dask)) g' -> gridded e alg r ct sr_grid vr_ops g'.

(** Asked for layer [l] at resolution [r] with its own sign convention, the grid answers with an array whose cell with
    lower left corner (x, y) holds [v]. *)
Definition cell_at {T} (O : tile_ops T) (e : env) (g : grid T) (l : string) (r x y : Z) (v : cell) : Prop :=
  exists X a R C, m_ext (g_meta g) = Some X /\
    g_get_layers_by_name O e g [l] (Some r) None (m_positive_up (g_meta g)) = Ok (g, Some [a]) /\
    x = x0 X + Z.of_nat C * r /\ y = y0 X + Z.of_nat R * r /\ nd_get a R C = Some v.
(** The layers that every grid gridded with [alg] has. *)
Definition kept_layer (e : env) (alg l : string) : Prop :=
  l = "depth" \/ l = "density" \/ (l = "vertical_uncertainty" /\ alg = "mean" /\ has_tvu (e_dt e) = true) \/
  (l = "horizontal_uncertainty" /\ alg = "mean" /\ has_thu (e_dt e) = true).
(** The same number, or no value in both. *)
Definition same_cell (v w : cell) : Prop :=
  match v, w with Some a, Some b => (a == b)%Q | None, None => True | _, _ => False end.
