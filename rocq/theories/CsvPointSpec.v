(** What a csv file should say of the soundings. *)
From Verif Require Import Py Nd Numpy Point Bin Algorithms Tile Time Meta Disk Grid GridRun GridQuery GridOps Export Spec TileExec GridExec WholeSpec.
Open Scope Z_scope.

(** The soundings in the square cell with lower left corner (x, y) and side [r]. *)
Definition cell_points (r x y : Z) (d : list point) : list point := filter (fun p => in_square x y r (px p) (py p)) d.
(** The file [f] for cells of side [r] and the layers [ls], gridded with [alg] from the soundings [d]. [raised]: the soundings
    were given as elevations; [flip]: depths are listed with the other sign. *)
Definition csv_of_points (e : env) (alg : string) (r : Z) (raised flip : bool) (d : list point) (ls : list string) (f : csv_file) : Prop :=
  (* every line is centred on a cell of the lattice of [r] and lists what the soundings there say *)
  (forall qx qy cs, (qx, qy, cs) ∈ cf_lines f -> exists x y, x mod r = 0 /\ y mod r = 0 /\
     (qx == inject_Z x + (r # 2))%Q /\ (qy == inject_Z y + (r # 2))%Q /\ length cs = length ls /\
     forall i l v, ls !! i = Some l -> cs !! i = Some v ->
       (l = "depth" -> exists w, depth_by alg (cell_points r x y d) w /\ exported_as (xorb raised flip) None w v) /\
       (l = "density" -> v = Some (numQ (length (cell_points r x y d)))) /\
       (l = "vertical_uncertainty" -> mean_cell (map ptvu (cell_points r x y d)) v) /\
       (l = "horizontal_uncertainty" -> mean_cell (map pthu (cell_points r x y d)) v)) /\
  (* the cell of every sounding has a line *)
  (forall p, p ∈ d -> exists ln, ln ∈ cf_lines f /\ (ln.1.1 == inject_Z (r * (px p / r)) + (r # 2))%Q /\ (ln.1.2 == inject_Z (r * (py p / r)) + (r # 2))%Q) /\
  (* no two lines are for the same cell *)
  (forall i j l1 l2, cf_lines f !! i = Some l1 -> cf_lines f !! j = Some l2 -> (l1.1.1 == l2.1.1)%Q -> (l1.1.2 == l2.1.2)%Q -> i = j).
