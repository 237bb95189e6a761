(** What the layer queries of single and variable resolution grids answer; used to state properties. *)
From Verif Require Import Py Nd Numpy Point Bin Algorithms Tile Time Meta Disk Grid GridRun GridQuery GridOps Export Spec TileExec GridExec.
Open Scope Z_scope.

(** [g'] is [g] after any number of layer queries. *)
Inductive queried {T} (O : tile_ops T) (e : env) (g : grid T) : grid T -> Prop :=
  | Q_none : queried O e g g
  | Q_more g1 g2 layers rez nodata up o : queried O e g g1 ->
      g_get_layers_by_name O e g1 layers rez nodata up = Ok (g2, o) -> queried O e g g2.

(** Asked for layer [l] at resolution [r], a grid whose tiles are used by [O] answers with one array covering
    its extents, whose cell (R, C) holds a value as [W] requires for the points of [d] in that cell; it is then [g']. *)
Definition answers_to {T} (O : tile_ops T) (e : env) (g : grid T) (l : string) (r : Z) (up : bool) (d : list point)
    (W : list point -> cell -> Prop) (g' : grid T) : Prop :=
  exists x a, m_ext (g_meta g) = Some x /\ g_get_layers_by_name O e g [l] (Some r) None up = Ok (g', Some [a]) /\
    length (nflat a) = (nrows a * ncols a)%nat /\ Z.of_nat (nrows a) * r = y1 x - y0 x /\ Z.of_nat (ncols a) * r = x1 x - x0 x /\
    forall R C, (R < nrows a)%nat -> (C < ncols a)%nat -> exists v, nd_get a R C = Some v /\ W (points_in_cell (x0 x) (y0 x) r R C d) v.
(** The same, and the grid is unchanged. *)
Definition answers_by {T} (O : tile_ops T) (e : env) (g : grid T) (l : string) (r : Z) (up : bool) (d : list point)
    (W : list point -> cell -> Prop) : Prop := answers_to O e g l r up d W g.
(** The depth that 'mean' or 'shoalest' gives a cell with the soundings [d]. *)
Definition depth_by (alg : string) (d : list point) : cell -> Prop :=
  if bool_decide (alg = "mean") then mean_cell (map pz d) else least_cell (map pz d).
(** The slope along x or y of a cell with the soundings [d]: what the least squares fit says for them, in some order. *)
Definition slope_cell (e : env) (l : string) (d : list point) (v : cell) : Prop :=
  (d = [] /\ v = None) \/
  (d <> [] /\ exists l', l' ≡ₚ map (fun p => (px p, py p, pz p)) d /\
     v = Some ((if bool_decide (l = "x_slope") then fst else snd) (e_lstsq e l'))).

(** [v] is in the z column of a csv file and [w] in the z band of a raster, for the same cell and the same
    z_positive_up. *)
Definition exported_both {T} (O : tile_ops T) (e : env) (g : grid T) (up : bool) (r : Z) (mx : option Z) (v w : cell) : Prop :=
  exists g1 fs g2 rs f qx qy cs i rf q j band k c,
    export_csv O e g up (Some r) = Ok (g1, fs) /\ export_geotiff O e g up (Some r) mx = Ok (g2, rs) /\
    f ∈ fs /\ (qx, qy, cs) ∈ cf_lines f /\ cf_names f !! (2 + i)%nat = Some (if up then "elevation" else "depth") /\ cs !! i = Some v /\
    rf ∈ rs /\ rf_geo rf = Some q /\ rf_names rf !! j = Some (if up then "Elevation" else "Depth") /\ rf_bands rf !! j = Some band /\
    pixel_centre q k c qx qy /\ nd_get band k c = Some w.

(** Asked for the layer [l] at resolution [r] at some locations, the grid is not changed and answers NaN outside its extents
    without the last row and column of cells, and elsewhere a value as [W] requires for the points of [d] in the
    cell of the location. *)
Definition values_by {T} (O : tile_ops T) (e : env) (g : grid T) (l : string) (r : Z) (d : list point)
    (W : list point -> cell -> Prop) : Prop :=
  forall xs ys, length xs = length ys -> xs <> [] ->
  exists x vals, m_ext (g_meta g) = Some x /\ g_layer_values_at_xy O e g xs ys l (Some r) None = Ok (g, vals) /\
    Forall2 (fun p v =>
      (x0 x <= p.1 < x1 x - r /\ y0 x <= p.2 < y1 x - r -> forall R C, in_cell (x0 x) (y0 x) r R C p.1 p.2 -> W (points_in_cell (x0 x) (y0 x) r R C d) v) /\
      (~ (x0 x <= p.1 < x1 x - r /\ y0 x <= p.2 < y1 x - r) -> v = None)) (zip xs ys) vals.
