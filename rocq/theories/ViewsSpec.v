(** What the properties of Properties_Views say, independently of the model. *)
From Verif Require Import Py Nd Numpy Point Bin Algorithms Tile Time Meta Disk Grid GridRun GridQuery GridOps Export Spec TileExec GridExec Views.
Open Scope Z_scope.

(** ** Density against depth *)
(** (density, depth) of the cells of a tile at one resolution whose density is positive, row by row. *)
Definition dense_cells (t : tile) (r : Z) : list (Q * cell) :=
  match layer_of t r "density", layer_of t r "depth" with
  | Some d, Some z =>
      omap (fun ij => match nd_get d ij.1 ij.2, nd_get z ij.1 ij.2 with
                      | Some (Some q), Some v => if Qle_bool q 0 then None else Some (q, v)
                      | _, _ => None
                      end) (positions (nrows d) (ncols d))
  | _, _ => []
  end.
(** ... over all its resolutions; with the density counted per square metre. *)
Definition dense_cells_of (t : tile) : list (Q * cell) := concat (map (dense_cells t) (dkeys (t_cells t))).
Definition dense_cells_sqm (e : env) (t : tile) : list (Q * cell) :=
  concat (map (fun r => map (fun qz : Q * cell => (qz.1 / (metres e r * metres e r), qz.2)%Q) (dense_cells t r)) (dkeys (t_cells t))).
(** Two lists of the same length that hold these pairs. *)
Definition pairs_are (l : list (Q * cell)) (dz : list Q * list cell) : Prop :=
  length dz.1 = length dz.2 /\ zip dz.1 dz.2 = l.
(** The cells of the n x n cells from (x, y) that contain points of [d], each with its pair. *)
Definition pairs_of_points (x y r : Z) (n : nat) (d : list point) (l : list (Q * cell)) : Prop :=
  Forall2 (fun ij qz => let here := points_in_cell x y r ij.1 ij.2 d in
             qz.1 = numQ (length here) /\ mean_cell (map pz here) qz.2)
    (filter (fun ij => points_in_cell x y r ij.1 ij.2 d <> []) (positions n n)) l.

(** ** The tile generator *)
(** (R, C) is one of the n x n cells of the whole grid that a tile given by the generator covers. *)
Definition covers (n : nat) (d : tile_read) (R C : nat) : Prop :=
  (tr_col d <= R < tr_col d + n)%nat /\ (tr_row d <= C < tr_row d + n)%nat.
(** Laying out the tiles [ds] gives the answer [o] of the query of the layer [l] of the whole grid; cells that no tile
    covers are [fill]. *)
Definition laid_out (l : string) (n : nat) (fill : cell) (ds : list tile_read) (o : option (list arr)) : Prop :=
  Forall (fun d => tr_cells d = n) ds /\
  NoDup (map (fun d => (tr_col d, tr_row d)) ds) /\
  (o = None <-> forall d, d ∈ ds -> tr_data d = []) /\
  forall arrs, o = Some arrs -> exists a, arrs = [a] /\ forall R C v, nd_get a R C = Some v ->
    (exists d b, d ∈ ds /\ covers n d R C /\ dget (tr_data d) l = Some b /\ nrows b = n /\ ncols b = n /\
       v = default None (nd_get b (R - tr_col d) (C - tr_row d))) \/
    ((forall d, d ∈ ds -> covers n d R C -> tr_data d = []) /\ v = fill).

(** The geotransform of the tile is that of its place in the grid. *)
Definition at_its_place (x : ext) (r : Z) (n : nat) (d : tile_read) : Prop :=
  forall q, tr_geo d = Some q -> q = (x0 x + Z.of_nat (tr_row d) * r, r, y0 x + Z.of_nat (tr_col d + n) * r).

(** ** Tile outlines *)
(** The square of side [s] at (x, y), drawn counterclockwise from its lower left corner. *)
Definition square_line (s x y : Z) : list (Z * Z) := [(x, y); (x + s, y); (x + s, y + s); (x, y + s); (x, y)].
(** Every step of the line is along an axis. *)
Definition along_axes (l : list (Z * Z)) : Prop :=
  forall i p q, l !! i = Some p -> l !! S i = Some q -> p.1 = q.1 \/ p.2 = q.2.
(** [l] contains the line [p]. *)
Definition draws (p l : list (Z * Z)) : Prop := exists a b, l = a ++ p ++ b.

(** ** BAG files *)
(** (h, l) are the largest and the smallest of the values [vs]. *)
Definition is_range (vs : list Q) (hl : Q * Q) : Prop :=
  hl.1 ∈ vs /\ hl.2 ∈ vs /\ forall q, q ∈ vs -> (hl.2 <= q)%Q /\ (q <= hl.1)%Q.
(** The values of an array other than [nodata]. *)
Definition set_values (nodata : Q) (a : arr) : list Q := filter (fun q => Qeq_bool q nodata = false) (values a).
