(** What CUBE computes for the tiles of a grid (C103, C104). *)
From Verif Require Import Py Nd Numpy Point Bin Algorithms Tile Time Meta Disk Grid GridRun GridQuery GridOps Spec TileExec GridExec.
Open Scope Z_scope.

(** The layers of tile [t], whose square has lower left corner (x, y) and side [size], at resolution [r] are what the CUBE engine
    returns for the points [d] of the tile followed by [border], turned upside down and rounded; the density counts the points of the
    tile alone. *)
Definition cube_reflects (e : env) (gp : option params) (border : list point) (r x y size : Z) (backscatter : bool) (d : list point) (t : tile) : Prop :=
  let data := d ++ border in
  let opt (g : params -> option string) dflt := match gp with Some p => default dflt (g p) | None => dflt end in
  exists n depth density unc hyp ratio, 0 < r /\ cells_cover size r n /\
    let out := e_cube e (CubeCall (map pz data) (map pthu data) (map ptvu data) (map px data) (map py data)
                 n n x (y + size) (opt p_method "local") (opt p_iho "order1a") r (opt p_var "cube")) in
    layer_of t r (if backscatter then "intensity" else "depth") = Some depth /\ layer_of t r "density" = Some density /\
    layer_of t r "total_uncertainty" = Some unc /\ layer_of t r "hypothesis_count" = Some hyp /\
    layer_of t r "hypothesis_ratio" = Some ratio /\
    layer_is n depth (fun row col v =>
      match nd_get (co_depth out) (n - 1 - row) col with
      | Some (Some z) => exists w, is_round3 z w /\ v = Some w | _ => v = None end) /\
    layer_is n unc (fun row col v =>
      match nd_get (co_depth out) (n - 1 - row) col, nd_get (co_unc out) (n - 1 - row) col with
      | Some (Some _), Some (Some u) => exists w, is_round3 u w /\ v = Some w | _, _ => v = None end) /\
    layer_is n ratio (fun row col v =>
      match nd_get (co_depth out) (n - 1 - row) col, nd_get (co_ratio out) (n - 1 - row) col with
      | Some (Some _), Some (Some u) => exists w, is_round3 u w /\ v = Some w | _, _ => v = None end) /\
    layer_is n hyp (fun row col v =>
      match nd_get (co_depth out) (n - 1 - row) col with
      | Some (Some _) => v = default None (nd_get (co_hyp out) (n - 1 - row) col) | _ => v = Some (numQ 0) end) /\
    layer_is n density (fun row col v => v = Some (numQ (length (points_in_cell x y r row col d)))).
(** The engine returns arrays of the size it was asked for. *)
Definition engine_shapes (e : env) : Prop :=
  forall call, Forall (fun a => nrows a = cc_numrows call /\ ncols a = cc_numcols call)
    [co_depth (e_cube e call); co_unc (e_cube e call); co_ratio (e_cube e call); co_hyp (e_cube e call)].

(** The width of the border strips: a tenth of the tile, with workers and a given resolution at most three cells. *)
Definition strip_width (size : Z) (workers : option nat) (rez : option Z) : Q :=
  match workers, rez with
  | Some _, Some r => if bool_decide (30 * r < size) then inject_Z (3 * r) else (size # 10)%Q
  | _, _ => (size # 10)%Q
  end.
