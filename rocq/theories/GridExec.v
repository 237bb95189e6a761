(** Executions of a grid: what a caller can do with it. *)
From Verif Require Import Py Nd Numpy Point Bin Algorithms Tile Time Meta Disk Grid GridRun GridQuery GridOps Export Spec.
Open Scope Z_scope.

(** Histories of a grid created as [g0]: the state, the containers it should hold (oldest first), the
    points added since it was last empty, and whether it was never emptied again. add_points and grid
    may raise; remove_points is required to return normally (Properties_Grid shows when it does). *)
Inductive grid_history {T} (O : tile_ops T) (e : env) (g0 : grid T)
    : grid T -> content -> list point -> bool -> Prop :=
  | GH_new : grid_history O e g0 g0 [] [] true
  | GH_add g ct seen ok d a :
      grid_history O e g0 g ct seen ok -> exn_of (g_add_points O g (GoodData d) a) = None ->
      grid_history O e g0 (st_of (g_add_points O g (GoodData d) a)) (ct ++ [(a_container a, d)])
        (seen ++ d) ok
  | GH_add_failed g ct seen ok inp a :
      grid_history O e g0 g ct seen ok -> exn_of (g_add_points O g inp a) <> None ->
      grid_history O e g0 (st_of (g_add_points O g inp a)) ct seen ok
  | GH_remove g ct seen ok c :
      grid_history O e g0 g ct seen ok -> exn_of (g_remove_points O g c) = None ->
      drop_c ct c <> [] ->
      grid_history O e g0 (st_of (g_remove_points O g c)) (drop_c ct c) seen ok
  | GH_remove_last g ct seen ok c :
      grid_history O e g0 g ct seen ok -> exn_of (g_remove_points O g c) = None ->
      drop_c ct c = [] ->
      grid_history O e g0 (st_of (g_remove_points O g c)) [] [] (ok && bool_decide (ct = []))
  | GH_grid g ct seen ok a dask :
      grid_history O e g0 g ct seen ok ->
      grid_history O e g0 (st_of (g_grid O e g a dask)) ct seen ok
  | GH_query g ct seen ok layers rez nodata up g' o :
      grid_history O e g0 g ct seen ok ->
      g_get_layers_by_name O e g layers rez nodata up = Ok (g', o) ->
      grid_history O e g0 g' ct seen ok.

(** Histories in which every call of grid() returned normally and had arguments satisfying [P]. *)
Inductive clean_history {T} (O : tile_ops T) (e : env) (P : gargs -> Prop) (g0 : grid T)
    : grid T -> content -> Prop :=
  | CH_new : clean_history O e P g0 g0 []
  | CH_add g ct d a :
      clean_history O e P g0 g ct -> exn_of (g_add_points O g (GoodData d) a) = None ->
      clean_history O e P g0 (st_of (g_add_points O g (GoodData d) a)) (ct ++ [(a_container a, d)])
  | CH_add_failed g ct inp a :
      clean_history O e P g0 g ct -> exn_of (g_add_points O g inp a) <> None ->
      clean_history O e P g0 (st_of (g_add_points O g inp a)) ct
  | CH_remove g ct c :
      clean_history O e P g0 g ct -> exn_of (g_remove_points O g c) = None ->
      clean_history O e P g0 (st_of (g_remove_points O g c)) (drop_c ct c)
  | CH_grid g ct a dask :
      clean_history O e P g0 g ct -> P a -> exn_of (g_grid O e g a dask) = None ->
      clean_history O e P g0 (st_of (g_grid O e g a dask)) ct
  | CH_query g ct layers rez nodata up g' o :
      clean_history O e P g0 g ct ->
      g_get_layers_by_name O e g layers rez nodata up = Ok (g', o) ->
      clean_history O e P g0 g' ct.

(** Histories with the calls of add_points made: those whose containers are held now, all that returned
    normally, and those that raised (newest last). Any call may raise. *)
Inductive add_calls {T} (O : tile_ops T) (e : env) (g0 : grid T)
    : grid T -> list add_args -> list add_args -> list add_args -> Prop :=
  | AC_new : add_calls O e g0 g0 [] [] []
  | AC_add g held done failed d a :
      add_calls O e g0 g held done failed -> exn_of (g_add_points O g (GoodData d) a) = None ->
      add_calls O e g0 (st_of (g_add_points O g (GoodData d) a)) (held ++ [a]) (done ++ [a]) failed
  | AC_add_failed g held done failed inp a :
      add_calls O e g0 g held done failed -> exn_of (g_add_points O g inp a) <> None ->
      add_calls O e g0 (st_of (g_add_points O g inp a)) held done (failed ++ [a])
  | AC_remove g held done failed c :
      add_calls O e g0 g held done failed ->
      add_calls O e g0 (st_of (g_remove_points O g c)) (filter (fun a => a_container a <> c) held) done failed
  | AC_grid g held done failed a dask :
      add_calls O e g0 g held done failed ->
      add_calls O e g0 (st_of (g_grid O e g a dask)) held done failed
  | AC_query g held done failed layers rez nodata up g' o :
      add_calls O e g0 g held done failed ->
      g_get_layers_by_name O e g layers rez nodata up = Ok (g', o) ->
      add_calls O e g0 g' held done failed.
(** [z] is [q] without its fractional part. *)
Definition is_trunc (q : Q) (z : Z) : Prop :=
  (0 <= q /\ inject_Z z <= q < inject_Z (z + 1))%Q \/ (q <= 0 /\ inject_Z (z - 1) < q <= inject_Z z)%Q.
(** A call gave the non-zero time [t], [z] in whole seconds. *)
Definition gave (t : option Q) (z : Z) : Prop := exists q, t = Some q /\ ~ (q == 0)%Q /\ is_trunc q z.
(** Seconds of the years 1000 to 9999. *)
Definition four_digit_year (z : Z) : Prop := -30610224000 <= z < 253402300800.
(** The lines recorded for a call. *)
Definition lines_of (a : add_args) : list string := match a_files a with [] => ["Unknown"] | l => l end.

(** ** Container names *)
(** [sub] occurs in [s]. *)
Definition occurs (sub s : string) : Prop := exists a b, s = a +:+ sub +:+ b.
(** [p] is the part of [k] before its only '__' (when there are several places to split at, the first). *)
Definition before_dunder (k p : string) : Prop :=
  exists b, k = p +:+ "__" +:+ b /\ ~ occurs "__" (p +:+ "_") /\ ~ occurs "__" b.
(** The entry of the container [k]. *)
Definition entry_for (k p : string) : Prop :=
  before_dunder k p \/ (p = k /\ forall q, ~ before_dunder k q).
(** The elements of [l], each at its first appearance only. *)
Definition first_seen (l : list string) : list string :=
  concat (imap (fun i x => if bool_decide (x ∈ take i l) then [] else [x]) l).

(** Gridding with one of the three algorithms. *)
Definition known_args (a : gargs) : Prop := ga_alg a ∈ ["mean"; "shoalest"; "cube"].

(** Histories of the grids that create_grid makes. *)
Definition sr_history (e : env) (size : Z) (backscatter zarr disk : bool) :=
  grid_history sr_ops e (create_sr size backscatter zarr disk).
Definition vr_history (e : env) (size sub : Z) (backscatter zarr disk : bool) :=
  grid_history vr_ops e (create_vr size sub backscatter zarr disk).

Definition sr_clean (e : env) (P : gargs -> Prop) (size : Z) (backscatter zarr disk : bool) :=
  clean_history sr_ops e P (create_sr size backscatter zarr disk).
Definition vr_clean (e : env) (P : gargs -> Prop) (size sub : Z) (backscatter zarr disk : bool) :=
  clean_history vr_ops e P (create_vr size sub backscatter zarr disk).

(** The tile at the location whose lower left corner is (x, y). *)
Definition has_tile {T} (g : grid T) (x y : Z) (t : T) : Prop :=
  exists k, origin_at g k = Some (x, y) /\ tile_at g k = Some t.

(** A layer of a tile at one resolution. *)
Definition layer_of (t : tile) (r : Z) (name : string) : option arr :=
  match dget (t_cells t) r with Some l => dget l name | None => None end.
(** [t'] is [t] with the points [d] of a new container [c] appended; only the slope layers, which are
    derived from the points, may be dropped. *)
Definition gained (t : tile) (d : list point) (c : string) (t' : tile) : Prop :=
  t_min_x t' = t_min_x t /\ t_min_y t' = t_min_y t /\ t_size t' = t_size t /\
  t_backscatter t' = t_backscatter t /\ t_algorithm t' = t_algorithm t /\
  t_data t' = Some (default [] (t_data t) ++ d) /\
  t_container t' = t_container t ++ [(c, (length (default [] (t_data t)), length (default [] (t_data t) ++ d)))] /\
  forall r name, name ∉ ["x_slope"; "y_slope"] -> layer_of t' r name = layer_of t r name.
(** Unchanged when there are no points for it. *)
Definition gains (t : tile) (d : list point) (c : string) (t' : tile) : Prop :=
  (d = [] /\ t' = t) \/ (d <> [] /\ gained t d c t').

(** ** Layers computed from the points *)
(** Gridding always with the same algorithm and resolution. *)
Definition only_args (alg : string) (r : Z) (a : gargs) : Prop := ga_alg a = alg /\ ga_rez a = Some r.
(** The layers of tile [t], whose square has lower left corner (x, y) and side [size], at resolution [r]
    are those of algorithm [alg] ('mean' or 'shoalest') for the points [d]. *)
Definition reflects (e : env) (alg : string) (r x y size : Z) (backscatter : bool) (d : list point) (t : tile) : Prop :=
  let cell_points row col := points_in_cell x y r row col d in
  exists n depth density, 0 < r /\ cells_cover size r n /\
    layer_of t r (if backscatter then "intensity" else "depth") = Some depth /\ layer_of t r "density" = Some density /\
    (alg = "mean" -> layer_is n depth (fun row col => mean_cell (map pz (cell_points row col)))) /\
    (alg = "shoalest" -> layer_is n depth (fun row col => least_cell (map pz (cell_points row col)))) /\
    layer_is n density (fun row col v => v = Some (numQ (length (cell_points row col)))) /\
    (alg = "mean" -> has_tvu (e_dt e) = true -> exists a, layer_of t r "vertical_uncertainty" = Some a /\
       layer_is n a (fun row col => mean_cell (map ptvu (cell_points row col)))) /\
    (alg = "mean" -> has_thu (e_dt e) = true -> exists a, layer_of t r "horizontal_uncertainty" = Some a /\
       layer_is n a (fun row col => mean_cell (map pthu (cell_points row col)))).
(** Every tile location of a single (variable) resolution grid holds the tile of the points there. *)
Definition sr_reflects (e : env) (alg : string) (r size : Z) (backscatter : bool) (ct : content) (g : sr_grid) : Prop :=
  forall k x y, origin_at g k = Some (x, y) ->
  let here := filter (fun p => in_square x y size (px p) (py p)) (all_points ct) in
  match tile_at g k with
  | Some t => t_data t = Some here /\ here <> [] /\ reflects e alg r x y size backscatter here t
  | None => here = []
  end.
Definition vr_reflects (e : env) (alg : string) (r size sub : Z) (ct : content) (g : vr_grid) : Prop :=
  forall x y sg j u v, has_tile g x y sg -> origin_at sg j = Some (u, v) ->
  let here := filter (fun p => in_square x y size (px p) (py p) /\ in_square u v sub (px p) (py p)) (all_points ct) in
  match tile_at sg j with
  | Some t => t_data t = Some here /\ here <> [] /\ reflects e alg r u v sub false here t
  | None => here = []
  end.
(** The layers that gridding with 'mean' or 'shoalest' makes. *)
Definition grid_layer (e : env) (backscatter : bool) (name : string) : Prop :=
  name = (if backscatter then "intensity" else "depth") \/ name = "density" \/
  (name = "vertical_uncertainty" /\ has_tvu (e_dt e) = true) \/
  (name = "horizontal_uncertainty" /\ has_thu (e_dt e) = true).
(** Two tiles hold the same points and the same such layers at [r]. *)
Definition same_tile (e : env) (backscatter : bool) (r : Z) (t t' : tile) : Prop :=
  t_data t = t_data t' /\ t_container t = t_container t' /\
  forall name, grid_layer e backscatter name -> is_Some (layer_of t r name) /\ layer_of t r name = layer_of t' r name.

(** ** Border points *)
(** The points of [d] in the four squares that share a side with the square of side [size] at (x, y) and
    within [q] of that side: those with smaller y, larger x, larger y, smaller x. *)
Definition border_points (size x y : Z) (q : Q) (d : list point) : list point :=
  filter (fun p => in_square x (y - size) size (px p) (py p) /\ Qle_bool (inject_Z (y - py p)) q = true) d ++
  filter (fun p => in_square (x + size) y size (px p) (py p) /\ Qle_bool (inject_Z (px p - (x + size))) q = true) d ++
  filter (fun p => in_square x (y + size) size (px p) (py p) /\ Qle_bool (inject_Z (py p - (y + size))) q = true) d ++
  filter (fun p => in_square (x - size) y size (px p) (py p) /\ Qle_bool (inject_Z (x - px p)) q = true) d.

(** ** Answers of a layer query *)
(** Asked for layer [l] at resolution [r], the grid answers with one array covering its extents, whose
    cell (R, C) holds a value as [W] requires for the points of [d] in that cell; and it is unchanged. *)
Definition answers (e : env) (g : sr_grid) (l : string) (r : Z) (up : bool) (d : list point) (W : list point -> cell -> Prop) : Prop :=
  exists x a, m_ext (g_meta g) = Some x /\ g_get_layers_by_name sr_ops e g [l] (Some r) None up = Ok (g, Some [a]) /\
    length (nflat a) = (nrows a * ncols a)%nat /\ Z.of_nat (nrows a) * r = y1 x - y0 x /\ Z.of_nat (ncols a) * r = x1 x - x0 x /\
    forall R C, (R < nrows a)%nat -> (C < ncols a)%nat -> exists v, nd_get a R C = Some v /\ W (points_in_cell (x0 x) (y0 x) r R C d) v.

(** Two arrays of the same shape whose cells are related by [R]; two answers of a query. *)
Definition cellwise (R : cell -> cell -> Prop) (a b : arr) : Prop :=
  nrows a = nrows b /\ ncols a = ncols b /\ Forall2 R (nflat a) (nflat b).
Definition same_answers (R : cell -> cell -> Prop) : option (list arr) -> option (list arr) -> Prop :=
  option_Forall2 (Forall2 (cellwise R)).
(** [y] is [x] with NaN replaced by [v]; [y] is [x] with the other sign. *)
Definition filled (v : cell) (x y : cell) : Prop := y = match x with None => v | Some q => Some q end.
Definition opposite (x y : cell) : Prop :=
  match x, y with Some p, Some q => (p + q == 0)%Q | None, None => True | _, _ => False end.

(** ** Trimmed layers *)
(** Cell (R, C) of [a] holds a value. *)
Definition holds (a : arr) (R C : nat) : Prop := exists q, nd_get a R C = Some (Some q).
(** Rows r0 to r1 (excluded) and columns c0 to c1 (excluded) are the smallest box with every value of [a]. *)
Record value_box (a : arr) (r0 c0 r1 c1 : nat) : Prop := {
  vb_rows : (r0 < r1 <= nrows a)%nat; vb_cols : (c0 < c1 <= ncols a)%nat;
  vb_all : forall R C, holds a R C -> (r0 <= R < r1)%nat /\ (c0 <= C < c1)%nat;
  vb_bottom : exists C, holds a r0 C; vb_top : exists C, holds a (r1 - 1) C;
  vb_left : exists R, holds a R c0; vb_right : exists R, holds a R (c1 - 1) }.
(** [b] is that part of [a]. *)
Definition part_of (r0 c0 r1 c1 : nat) (a b : arr) : Prop :=
  nrows b = (r1 - r0)%nat /\ ncols b = (c1 - c0)%nat /\ length (nflat b) = (nrows b * ncols b)%nat /\
  forall i j, (i < nrows b)%nat -> (j < ncols b)%nat -> nd_get b i j = nd_get a (r0 + i) (c0 + j).

(** ** Values at locations *)
(** [v] is the value of the cell of [a] (an array covering the rectangle [x] at resolution [r]) that
    contains the location; NaN when there is no such cell. *)
Definition value_at (x : ext) (r : Z) (a : arr) (p : Z * Z) (v : cell) : Prop :=
  (exists R C, in_cell (x0 x) (y0 x) r R C p.1 p.2 /\ nd_get a R C = Some v) \/
  (v = None /\ forall R C, (R < nrows a)%nat -> (C < ncols a)%nat -> ~ in_cell (x0 x) (y0 x) r R C p.1 p.2).
(** The location is in the last row or column of the array. *)
Definition in_last (x : ext) (r : Z) (a : arr) (p : Z * Z) : Prop :=
  exists R C, (R < nrows a)%nat /\ (C < ncols a)%nat /\ in_cell (x0 x) (y0 x) r R C p.1 p.2 /\ (S R = nrows a \/ S C = ncols a).
(** [v] is the value in [vals] (one for each resolution of [rs]) of the smallest resolution that has one. *)
Definition finest (rs : list Z) (vals : Z -> cell) (v : cell) : Prop :=
  (v = None /\ forall r, r ∈ rs -> vals r = None) \/
  exists r, r ∈ rs /\ vals r = v /\ v <> None /\ forall r', r' ∈ rs -> r' < r -> vals r' = None.

(** ** Exported rasters *)
(** The square of the pixel in line [k] from the top and column [c] from the left of a raster whose
    geotransform has the given x origin, pixel size and y origin. *)
Definition in_pixel (geo : Z * Z * Z) (k c : nat) (x y : Z) : Prop :=
  let '(gx, r, gy) := geo in
  gx + Z.of_nat c * r <= x < gx + (Z.of_nat c + 1) * r /\ gy - (Z.of_nat k + 1) * r <= y < gy - Z.of_nat k * r.
Global Instance in_pixel_dec geo k c x y : Decision (in_pixel geo k c x y).
Proof. destruct geo as [[? ?] ?]. unfold in_pixel. apply _. Defined.
(** The value, in the answer to the query of one layer of the whole grid, of the cell whose square is [S]. *)
Definition layer_value (x : ext) (r : Z) (o : option (list arr)) (nodata : cell) (S : Z -> Z -> Prop) (v : cell) : Prop :=
  match o with
  | Some arrs => exists a R C, arrs = [a] /\ nd_get a R C = Some v /\ forall px py, S px py <-> in_cell (x0 x) (y0 x) r R C px py
  | None => v = nodata
  end.
(** The rasters exported from [out] for the layers [ls] show these layers, at the right place, and leave
    out no value. *)
Definition rasters_show {T} (O : tile_ops T) (e : env) (g : grid T) (r : Z) (ls : list string) (nodata : cell) (up : bool)
    (out : list (option (Z * Z * Z) * dict string arr)) : Prop :=
  exists x, m_ext (g_meta g) = Some x /\
  (forall geo data, (geo, data) ∈ out -> dkeys data = ls /\ exists q, geo = Some q /\ q.1.2 = r /\
     forall l d o, (l, d) ∈ data -> g_get_layers_by_name O e g [l] (Some r) nodata up = Ok (g, o) ->
     exists band, gdal_bands [d] = Ok [band] /\ (0 < nrows band)%nat /\ (0 < ncols band)%nat /\ length (nflat band) = (nrows band * ncols band)%nat /\
     forall k c v, nd_get band k c = Some v -> layer_value x r o nodata (in_pixel q k c) v) /\
  (forall l o S v, l ∈ ls -> g_get_layers_by_name O e g [l] (Some r) nodata up = Ok (g, o) -> layer_value x r o nodata S v -> v <> nodata ->
     exists q data d band k c, (Some q, data) ∈ out /\ dget data l = Some d /\ gdal_bands [d] = Ok [band] /\
       (forall px py, S px py <-> in_pixel q k c px py) /\ nd_get band k c = Some v).
(** [v] is [w] written to a raster: NaN becomes the nodata value, the sign may be changed. *)
Definition exported_as (flip : bool) (nodata w v : cell) : Prop :=
  match w with
  | None => v = nodata
  | Some q => exists q', v = Some q' /\ (q' == if flip then - q else q)%Q
  end.

(** ** Counting cells *)
(** The positions of an array in row-major order. *)
Definition positions (rows cols : nat) : list (nat * nat) :=
  concat (map (fun i => map (fun j => (i, j)) (seq 0 cols)) (seq 0 rows)).
(** The values present in an array, in row-major order. *)
Definition values_in_order (a : arr) : list Q :=
  omap (fun ij => default None (nd_get a ij.1 ij.2)) (positions (nrows a) (ncols a)).
(** Those of a layer of a tile, resolution by resolution. *)
Definition layer_values (t : tile) (name : string) : list Q :=
  concat (map (fun r => match layer_of t r name with Some a => values_in_order a | None => [] end) (dkeys (t_cells t))).
(** How many cells of a layer hold a value; how many hold a positive one. *)
Definition populated (t : tile) (r : Z) (name : string) : nat :=
  match layer_of t r name with Some a => length (values_in_order a) | None => 0%nat end.
Definition positives (t : tile) (r : Z) (name : string) : nat :=
  match layer_of t r name with Some a => length (filter (fun q => Qle_bool q 0 = false) (values_in_order a)) | None => 0%nat end.
(** How many of the n x n cells of size [r] from (x, y) contain points of [d]. *)
Definition cells_with_points (x y r : Z) (n : nat) (d : list point) : nat :=
  length (filter (fun ij => points_in_cell x y r ij.1 ij.2 d <> []) (positions n n)).
(** Square metres of the cells of a tile whose density is positive, over all its resolutions. *)
Definition gridded_area (e : env) (t : tile) : Q :=
  sumQ (map (fun r => numQ (positives t r "density") * (metres e r * metres e r))%Q (dkeys (t_cells t))).
(** The tiles of a variable resolution grid, sub grid by sub grid. *)
Definition vr_tiles (g : vr_grid) : list tile := concat (map live_tiles (live_tiles g)).

(** ** Text files *)
(** The middle of a pixel. *)
Definition pixel_centre (geo : Z * Z * Z) (k c : nat) (x y : Q) : Prop :=
  let '(gx, r, gy) := geo in
  (x == inject_Z (gx + Z.of_nat c * r) + (r # 2))%Q /\ (y == inject_Z (gy - (Z.of_nat k + 1) * r) + (r # 2))%Q.
