(** bgrid.py:2192-2418: export to csv and geotiff, and the attribution shown to users. File systems,
    GDAL and the text written by np.savetxt are not modelled: an export is the list of files handed to
    them, with their contents. *)
From Verif Require Import Py Nd Numpy Point Bin Algorithms Tile Time Meta Disk Grid GridQuery.
Open Scope Z_scope.

(** The bands written by utilities.gdal_raster_create (utilities.py:329-346, transpose=True as in all
    calls): entry (k, c) of a band is raster line k from the top, pixel c from the left. *)
Definition gdal_bands (data : list arr) : res (list arr) :=
  match data with [] => Raise IndexError | _ => Ok (map (nd_transpose None) data) end.

(** A raster file: resolution and chunk number in its name, geotransform, band names, bands. *)
Record raster_file := RasterFile {
  rf_rez : Z; rf_chunk : nat; rf_geo : option (Z * Z * Z); rf_names : list string; rf_bands : list arr }.

(** A text file: resolution in its name, column names, lines before sorting (x, y, one cell per layer). *)
Record csv_file := CsvFile { cf_rez : Z; cf_names : list string; cf_lines : list (Q * Q * list cell) }.

(** bgrid.py:2292-2293 *)
Definition band_name (l : string) : string :=
  if bool_decide (l = "depth") then "Depth" else
  if bool_decide (l = "vertical_uncertainty") then "Vertical Uncertainty" else
  if bool_decide (l = "total_uncertainty") then "Total Uncertainty" else
  if bool_decide (l = "intensity") then "Intensity" else l.

Section export.
  Context {T : Type} (O : tile_ops T) (e : env).

  (** bgrid.py:2302-2309. [list.index] raises ValueError when the value is not in the list. *)
  Definition raster_layers (g : grid T) (up : bool) : res (list string * list string) :=
    let lnames := if m_backscatter (g_meta g) then ["intensity"]
                  else filter (fun l => l ∈ ["depth"; "vertical_uncertainty"; "total_uncertainty"]) (g_layer_names O g) in
    let fnames := map band_name lnames in
    if negb (m_backscatter (g_meta g)) && up then
      if bool_decide ("Depth" ∈ fnames)
      then Ok (lnames, map (fun s => if bool_decide (s = "Depth") then "Elevation" else s) fnames)
      else Raise ValueError
    else Ok (lnames, fnames).

  Fixpoint number_files (rez : Z) (names : list string) (n : nat) (chunks : list (option (Z * Z * Z) * dict string arr))
      : res (list raster_file) :=
    match chunks with
    | [] => Ok []
    | (geo, data) :: rest =>
        let* bands := gdal_bands (map snd data) in
        let* l := number_files rez names (S n) rest in
        Ok (RasterFile rez n geo names bands :: l)
    end.

  (** bgrid.py:2274-2315. The nodata value is 1000000.0. Simplification: when a later chunk raises, the
      files already written are not returned. *)
  Definition export_geotiff (g : grid T) (up : bool) (rez : option Z) (max_chunk : option Z) : res (grid T * list raster_file) :=
    let rs := match rez with Some r => [r] | None => m_rezs (g_meta g) end in
    let* ln := raster_layers g up in
    foldl (fun acc r =>
             let* s := acc in
             let* gc := g_get_chunks_of_tiles O e s.1 r ln.1 (Some 1000000%Q) up max_chunk true in
             let* fs := number_files r ln.2 1 gc.2 in
             Ok (gc.1, s.2 ++ fs)) (Ok (g, [])) rs.

  (** bgrid.py:2257-2268 for one layer: the column name and the values. *)
  Definition csv_column (m : gmeta) (up : bool) (l : string) (a : arr) : string * arr :=
    if bool_decide (l = "depth") && up
    then ("elevation", if Qle_bool (m_mean_depth m) 0 then a else nd_map cell_neg a)
    else (l, a).
  (** [lyrdata[cnt]] for every layer name *)
  Fixpoint csv_columns (m : gmeta) (up : bool) (ls : list string) (data : list arr) : res (list (string * arr)) :=
    match ls, data with
    | [], _ => Ok []
    | _ :: _, [] => Raise IndexError
    | l :: ls', a :: data' => let* r := csv_columns m up ls' data' in Ok (csv_column m up l a :: r)
    end.
  (** bgrid.py:2254-2272: one line for each cell of the trimmed layers, row by row. Simplifications: the
      lines are then sorted by x with numpy's unstable sort, which is not modelled; numbers are printed with
      three decimals. *)
  Definition csv_lines (xs ys : list Q) (cols : list (string * arr)) : list (Q * Q * list cell) :=
    concat (imap (fun i y => imap (fun j x => (x, y, map (fun c : string * arr => default None (nd_get c.2 i j)) cols)) xs) ys).

  (** bgrid.py:2231-2272 *)
  Definition export_csv (g : grid T) (up : bool) (rez : option Z) : res (grid T * list csv_file) :=
    let rs := match rez with Some r => [r] | None => m_rezs (g_meta g) end in
    foldl (fun acc r =>
             let* s := acc in
             let* ls := g_return_layer_names O s.1 in
             let* gs := g_surf_nodes O e s.1 ls (Some r) None in
             let '(xs, ys, data) := gs.2 in
             let* cols := csv_columns (g_meta g) up ls data in
             Ok (gs.1, s.2 ++ [CsvFile r (["x"; "y"] ++ map fst cols) (csv_lines xs ys cols)])) (Ok (g, [])) rs.

  (** bgrid.py:2192-2229. The name of the file when the path already exists is not modelled. Bag files
      hold the same rasters as geotiff (bgrid.py:2317-2382) with z_positive_up=True and other band names. *)
  Inductive exported := Csv (fs : list csv_file) | Rasters (fs : list raster_file).
  Definition export (g : grid T) (format : string) (up : bool) (rez : option Z) (max_chunk : option Z) : res (grid T * exported) :=
    let fmt := str_lower format in
    if bool_decide (fmt = "csv") then let* r := export_csv g up rez in Ok (r.1, Csv r.2)
    else if bool_decide (fmt = "geotiff") then let* r := export_geotiff g up rez max_chunk in Ok (r.1, Rasters r.2)
    else if bool_decide (fmt = "bag") then
      if m_backscatter (g_meta g) then Raise ValueError
      else let* r := export_geotiff g true rez max_chunk in Ok (r.1, Rasters r.2)
    else Raise ValueError.
End export.

(** The last branch of return_attribution (bgrid.py:2412-2416): the first container whose name contains
    [c]. *)
Definition nearest_container (m : gmeta) (c : string) : res string :=
  rofopt (head (filter (fun n => str_has c n = true) (dkeys (m_container m)))) IndexError.
(** bgrid.py:2400-2417: the entries 'source_...' of return_attribution: name, time stamp, lines. The
    other entries copy attributes. Simplification: [nearest_cont_name[0]] is never empty. *)
Definition attribution_step (m : gmeta) (acc : res (dict string (string * list string))) (c : string)
    : res (dict string (string * list string)) :=
  let* d := acc in
  let entry k := match dget (m_timestamp m) k, dget (m_container m) k with
                 | Some t, Some l => Some (t, l) | _, _ => None end in
  match entry (c +:+ "_0") with
  | Some v => Ok (dset d c v)
  | None => match entry c with
            | Some v => Ok (dset d c v)
            | None => let* n := nearest_container m c in
                      let* v := rofopt (entry n) KeyError in Ok (dset d n v)
            end
  end.
Definition m_return_attribution (m : gmeta) : res (dict string (string * list string)) :=
  foldl (attribution_step m) (Ok []) (m_return_unique_containers m).
