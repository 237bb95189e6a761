(** bgrid.py, tile.py: other attributes and queries of a grid: density against depth, uncertainty flags,
    square nautical miles, the tile generator, tile outlines, the forms of locations and of input data, and
    the BAG files. *)
From Verif Require Import Py Nd Numpy Point Bin Algorithms Tile Time Meta Disk Grid GridRun GridQuery GridOps Export.
Open Scope Z_scope.

(** ** Density against depth *)
(** [density > 0] *)
Definition positive_mask (a : arr) : list bool :=
  map (fun c : cell => match c with Some q => negb (Qle_bool q 0) | None => false end) (nflat a).
(** tile.py:158-171, 187-200: one resolution. [scale] is the division by the area of a cell. A mask of another
    shape raises IndexError. *)
Definition vs_depth_at (scale : Z -> Q -> Q) (rl : Z * dict string arr) : res (list Q * list cell) :=
  let* d := density_layer rl in
  let* z := rofopt (dget rl.2 "depth") ValueError in
  if bool_decide (nrows z = nrows d /\ ncols z = ncols d) then
    let msk := positive_mask d in
    Ok (map (scale rl.1) (omap id (mask_select msk (nflat d))), mask_select msk (nflat z))
  else Raise IndexError.
Definition join_pairs {A B} (l : list (list A * list B)) : list A * list B := (concat (map fst l), concat (map snd l)).
(** tile.py:144-172 *)
Definition t_density_count_vs_depth (t : tile) : res (list Q * list cell) :=
  let* l := rmap (vs_depth_at (fun _ q => q)) (t_cells t) in Ok (join_pairs l).
(** tile.py:173-201 *)
Definition t_density_sqm_vs_depth (e : env) (t : tile) : res (list Q * list cell) :=
  let* l := rmap (vs_depth_at (fun r q => q / (metres e r * metres e r))%Q) (t_cells t) in Ok (join_pairs l).
(** bgrid.py:255-285, [f] being the attribute of a tile. *)
Definition g_vs_depth {T} (f : T -> res (list Q * list cell)) (g : grid T) : res (list Q * list cell) :=
  let* l := rmap f (live_tiles g) in Ok (join_pairs l).

(** ** Uncertainty flags *)
(** bgrid.py:151-155, 177-181 for the tile that the loops arrive at. [col] is the column looked for. *)
Definition t_has_column (col : dtype -> bool) (e : env) (t : tile) : bool :=
  match t_data t with None => false | Some _ => col (e_dt e) end.
(** bgrid.py:130-155, 156-181 for an SRGrid: the first tile decides; without tiles in the array the result is
    None. *)
Definition sr_has_column (col : dtype -> bool) (e : env) (g : sr_grid) : option bool :=
  match g_tiles g with
  | None => Some false
  | Some _ => option_map (t_has_column col e) (head (live_tiles g))
  end.
(** ... and for a VRGridTile: the last sub-tile of the first tile decides. A tile whose own tile array is None
    raises AttributeError. Simplification: a tile without any sub-tile, whose own [data] would decide, also
    raises here; reachable grids have none (VR tiles without points are removed). *)
Definition vr_has_column (col : dtype -> bool) (e : env) (g : vr_grid) : res (option bool) :=
  match g_tiles g with
  | None => Ok (Some false)
  | Some _ =>
      match live_tiles g with
      | [] => Ok None
      | sg :: _ => match last (live_tiles sg) with
                   | Some t => Ok (Some (t_has_column col e t))
                   | None => Raise AttributeError
                   end
      end
  end.

(** ** Square nautical miles *)
(** tile.py:223-234 *)
Definition t_coverage_nm (e : env) (t : tile) : res Q :=
  let* a := t_coverage_area e t in Ok (a / (3434290012 # 1000))%Q.
(** bgrid.py:300-311, [f] being the attribute of a tile. *)
Definition g_coverage_nm {T} (f : T -> res Q) (g : grid T) : res Q :=
  let* l := rmap f (live_tiles g) in Ok (qsum l).

(** ** The tile generator *)
Section tiles.
  Context {T : Type} (O : tile_ops T) (e : env).
  (** bgrid.py:787-791: one location of the tile array. *)
  Definition tiles_step (r : Z) (layers : list string) (nodata : cell) (up : bool)
      (acc : res (grid T * list tile_read)) (k : nat) : res (grid T * list tile_read) :=
    let* s := acc in
    match tile_at s.1 k with
    | None => Ok s
    | Some _ => let* gt := get_tile_data O e s.1 k r layers nodata up in Ok (gt.1, s.2 ++ [gt.2])
    end.
  (** bgrid.py:756-791. Simplification: the generator is run to the end. *)
  Definition g_get_tiles_by_resolution (g : grid T) (rez : option Z) (layers : list string) (nodata : cell) (up : bool)
      : res (grid T * list tile_read) :=
    let* r := pick_rez g rez in
    let* ng := g_no_grid O g in
    if ng then Raise ValueError else
    foldl (tiles_step r layers nodata up) (Ok (g, [])) (seq 0 (tiles_size g)).
End tiles.

(** ** Tile outlines *)
(** bgrid.py:871-885: the five points drawn for the edges (x, y). *)
Definition outline (s x y : Z) : list (Z * Z) := [(x, y); (x + s, y); (x + s, y + s); (x, y + s); (x, y)].
(** bgrid.py:887-889: the points of one row with the closing column. *)
Definition outline_row (s : Z) (xs : list Z) (y : Z) : list (Z * Z) :=
  concat (map (fun x => outline s x y) xs) ++ match last xs with Some x => [(x, y + s)] | None => [] end.
(** bgrid.py:855-890: the x and y coordinates side by side. Line 891 replaces the last y. Simplification: conversion to
    float32 is not modelled. *)
Definition g_tile_boundaries {T} (g : grid T) : res (list (Z * Z)) :=
  let* ge := rofopt (g_geom g) TypeError in
  let* x := rofopt (m_ext (g_meta g)) TypeError in
  let pts := concat (map (outline_row (m_tile_size (g_meta g)) (gex ge)) (gey ge)) in
  match last pts with
  | None => Raise IndexError
  | Some p => Ok (take (length pts - 1) pts ++ [(p.1, y1 x)])
  end.

(** bgrid.py:1735-1745 *)
Definition g_return_extents {T} (g : grid T) : option ((Z * Z) * (Z * Z)) :=
  option_map (fun x => ((x0 x, y0 x), (x1 x, y1 x))) (m_ext (g_meta g)).

(** ** Forms of locations *)
(** What may be given as x_loc and y_loc: a number, a tuple, a list or an array. *)
Inductive loc := LNum (v : Z) | LTuple (l : list Z) | LList (l : list Z) | LArr (l : list Z).
(** bgrid.py:1803-1804: x may be a tuple or a list. *)
Definition loc_x (x : loc) : loc := match x with LTuple l | LList l => LArr l | _ => x end.
(** bgrid.py:1805-1806: y may be a list. *)
Definition loc_y (y : loc) : loc := match y with LList l => LArr l | _ => y end.
(** [float(x)]: arrays of one entry are numbers too. *)
Definition loc_float (x : loc) : res Z := match x with LNum v | LArr [v] => Ok v | _ => Raise ValueError end.
Inductive locs := Arrays (x y : loc) | Numbers (x y : Z).
(** bgrid.py:1797-1817 *)
Definition validate_locs (x y : loc) : res locs :=
  let x1 := loc_x x in
  let y1 := loc_y y in
  let mismatch := match x1, y1 with LArr a, LArr b => negb (length a =? length b)%nat | _, _ => false end in
  if mismatch then Raise ValueError else
  match x1, y1 with
  | LNum _, _ | _, LNum _ => let* a := loc_float x1 in let* b := loc_float y1 in Ok (Numbers a b)
  | _, _ => Ok (Arrays x1 y1)
  end.
Inductive answer := Value (v : cell) | Values (l : list cell).
Section locations.
  Context {T : Type} (O : tile_ops T) (e : env).
  (** bgrid.py:1854-1897 for a pair of numbers: one resolution. [np.where] of a single truth value works as for
      an array of one (numpy before 2.1). *)
  Definition number_step (layer : string) (nodata : cell) (xy : Z * Z) (acc : res (grid T * cell)) (r : Z) : res (grid T * cell) :=
    let* s := acc in
    if negb (is_nodata nodata s.2) then Ok s else
    let* gs := g_surf_boundaries O e s.1 [layer] (Some r) nodata in
    let '(sx, sy, surfs) := gs.2 in
    let* surf := rofopt (head surfs) IndexError in
    let* v := lookup_xy sx sy surf xy s.2 in
    Ok (gs.1, v).
  (** bgrid.py:1822-1826 *)
  Definition query_rezs (g : grid T) (rez : option Z) : list Z :=
    match rez with Some r => [r] | None => merge_sort Z.le (m_rezs (g_meta g)) end.
  (** bgrid.py:1797-1898. Indexing the tuple y_loc raises TypeError at the first resolution looked at. *)
  Definition g_layer_values_at (g : grid T) (x y : loc) (layer : string) (rez : option Z) (nodata : cell) : res (grid T * answer) :=
    let* p := validate_locs x y in
    match p with
    | Numbers a b =>
        let* r := foldl (number_step layer nodata (a, b)) (Ok (g, nodata)) (query_rezs g rez) in Ok (r.1, Value r.2)
    | Arrays (LArr xs) (LArr ys) => let* r := g_layer_values_at_xy O e g xs ys layer rez nodata in Ok (r.1, Values r.2)
    | Arrays (LArr xs) _ =>
        match xs, query_rezs g rez with
        | [], _ | _, [] => Ok (g, Values (replicate (length xs) nodata))
        | _, r :: _ => let* _ := g_surf_boundaries O e g [layer] (Some r) nodata in Raise TypeError
        end
    | Arrays _ _ => Raise TypeError
    end.
End locations.

(** ** Forms of input data *)
(** A numpy or dask array with the names of its fields, an xarray Dataset with its variables and the number of
    dimensions of 'z', or something else. *)
Inductive raw_data := RawArray (names : option (list string)) | RawDataset (vars : list string) (ndim : nat) | RawOther.
(** bgrid.py:2115-2128: the variables kept. *)
Definition kept_columns (vars : list string) : list string := filter (fun v => v ∈ vars) ["x"; "y"; "z"; "tvu"; "thu"].
(** bgrid.py:2130-2148: the columns of the data that is added. *)
Definition validate_input_data (d : raw_data) : res (list string) :=
  match d with
  | RawArray None => Raise ValueError
  | RawArray (Some names) =>
      if bool_decide ("x" ∈ names) && bool_decide ("y" ∈ names) then Ok names else Raise ValueError
  | RawDataset vars ndim =>
      if negb (bool_decide ("x" ∈ vars)) then Raise ValueError
      else if negb (bool_decide ("z" ∈ vars)) then Raise KeyError
      else if (1 <? ndim)%nat then Raise ValueError
      else Ok (kept_columns vars)
  | RawOther => Raise ValueError
  end.

(** ** BAG files *)
(** bgrid.py:2346-2349: the two results of [replace] are dropped. *)
Definition bag_vertical_wkt (vert_crs : string) : string :=
  if bool_decide (vert_crs = "") then "VERT_CS[""unknown"", VERT_DATUM[""unknown"", 2000]]" else vert_crs.
(** bgrid.py:2359-2360 *)
Definition bag_band_name (l : string) : string :=
  if bool_decide (l = "depth") then "Depth" else "Uncertainty".
(** np.max and np.min raise ValueError for an empty array. *)
Definition q_max (a b : Q) : Q := if Qle_bool a b then b else a.
Definition high_low (l : list Q) : res (Q * Q) :=
  match l with [] => Raise ValueError | a :: r => Ok (foldl q_max a r, foldl qmin a r) end.
(** bgrid.py:1974-1983: (maximum, minimum) of the elevation, then of the uncertainty when there are two layers.
    An exception in the middle leaves what was written before it. Simplifications: h5py errors do not occur; NaN, which
    get_chunks_of_tiles has replaced by the nodata value, is left out. *)
Definition bag_high_low (data : list arr) (nodata : Q) : list (Q * Q) :=
  match data with
  | [] => []
  | a :: rest =>
      let valid := map (fun c : cell => match c with Some q => negb (Qeq_bool q nodata) | None => true end) (nflat a) in
      match high_low (omap id (mask_select valid (nflat a))) with
      | Raise _ => []
      | Ok hl => hl :: match rest with
                       | [b] => if bool_decide (nrows b = nrows a /\ ncols b = ncols a) then
                                  match high_low (omap id (mask_select valid (nflat b))) with Ok h => [h] | Raise _ => [] end
                                else []
                       | _ => []
                       end
      end
  end.
(** A BAG file: its raster, the vertical reference handed to GDAL, the ranges written afterwards, and the time
    period written into its metadata (bgrid.py:2013-2064). *)
Record bag_file := BagFile { bf_raster : raster_file; bf_vert : string; bf_ranges : list (Q * Q); bf_times : option (string * string) }.
Definition bag_times (m : gmeta) : option (string * string) :=
  if bool_decide (m_min_time m = "") || bool_decide (m_max_time m = "") then None else Some (m_min_time m, m_max_time m).
Section bag.
  Context {T : Type} (O : tile_ops T) (e : env).
  (** bgrid.py:2367-2370 *)
  Definition bag_layers (g : grid T) : res (list string * list string) :=
    let lnames := filter (fun l => l ∈ ["depth"; "vertical_uncertainty"; "total_uncertainty"]) (g_layer_names O g) in
    let fnames := map bag_band_name lnames in
    if bool_decide ("Depth" ∈ fnames)
    then Ok (lnames, map (fun s => if bool_decide (s = "Depth") then "Elevation" else s) fnames)
    else Raise ValueError.
  Fixpoint number_bags (m : gmeta) (vert : string) (rez : Z) (names : list string) (n : nat)
      (chunks : list (option (Z * Z * Z) * dict string arr)) : res (list bag_file) :=
    match chunks with
    | [] => Ok []
    | (geo, data) :: rest =>
        let* bands := gdal_bands (map snd data) in
        let* l := number_bags m vert rez names (S n) rest in
        Ok (BagFile (RasterFile rez n geo names bands) vert (bag_high_low (map snd data) 1000000) (bag_times m) :: l)
    end.
  (** bgrid.py:2317-2382. Simplification: as for export_geotiff; the other texts handed to GDAL and the Caris file are not
      modelled. *)
  Definition export_bag (g : grid T) (rez : option Z) (max_chunk : option Z) (vert_crs : string) : res (grid T * list bag_file) :=
    let rs := match rez with Some r => [r] | None => m_rezs (g_meta g) end in
    let* ln := bag_layers g in
    foldl (fun acc r =>
             let* s := acc in
             let* gc := g_get_chunks_of_tiles O e s.1 r ln.1 (Some 1000000%Q) true max_chunk true in
             let* fs := number_bags (g_meta g) (bag_vertical_wkt vert_crs) r ln.2 1 gc.2 in
             Ok (gc.1, s.2 ++ fs)) (Ok (g, [])) rs.
End bag.
