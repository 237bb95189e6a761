(** bgrid.py: reading layers out of a BathyGrid (lines 104-128, 196-311, 488-516, 793-853, 1004-1277,
    1711-1919). Queries return the grid too, because container and slope queries store layers. *)
From Verif Require Import Py Nd Numpy Point Bin Algorithms Tile Time Meta Disk Grid.
Open Scope Z_scope.

(** [a / b] asserted to be an integer (bgrid.py:512-515, 841-843), b > 0 *)
Definition exact_div (a b : Z) : res nat :=
  if b =? 0 then Raise ValueError else if a mod b =? 0 then Ok (Z.to_nat (a / b)) else Raise AssertionError.

(** Sizes of the sections of [np.array_split(l, n)] for a length [len]. *)
Definition split_sizes (len n : nat) : list nat :=
  replicate (len mod n) (S (len / n)) ++ replicate (n - len mod n) (len / n)%nat.
(** Start offsets with sizes. *)
Fixpoint sections (start : nat) (sizes : list nat) : list (nat * nat) :=
  match sizes with [] => [] | s :: r => (start, s) :: sections (start + s) r end.

(** Lexicographic [chunk_shape >= arr.shape] on python tuples (bgrid.py:1075). *)
Definition tuple_ge (a b : nat * nat) : bool :=
  (b.1 <? a.1)%nat || ((b.1 =? a.1)%nat && (b.2 <=? a.2)%nat).

(** [int(np.ceil(a / b))] for positive numbers *)
Definition nat_ceil_div (a b : nat) : nat := ((a + b - 1) / b)%nat.

(** The entries that are not None of a block, row by row (bgrid.py:1076-1078, 1090-1092). *)
Definition block_values {A} (a : nd (option A)) (r0 rn c0 cn : nat) : list A :=
  concat (map (fun r => omap (fun c => mjoin (nd_get a r c)) (seq c0 cn)) (seq r0 rn)).

(** bgrid.py:1054-1093 *)
Definition split_to_approx_shape {A} (a : nd (option A)) (shape : nat * nat) : list (list A) :=
  if tuple_ge shape (nrows a, ncols a) then
    match block_values a 0 (nrows a) 0 (ncols a) with [] => [] | l => [l] end
  else
    let rs := sections 0 (split_sizes (nrows a) (nat_ceil_div (nrows a) shape.1)) in
    let cs := sections 0 (split_sizes (ncols a) (nat_ceil_div (ncols a) shape.2)) in
    omap (fun rc : (nat * nat) * (nat * nat) =>
            match block_values a rc.1.1 rc.1.2 rc.2.1 rc.2.2 with [] => None | l => Some l end)
      (concat (map (fun r => map (fun c => (r, c)) cs) rs)).

Definition nat_min (l : list nat) : option nat :=
  match l with [] => None | a :: r => Some (foldl Nat.min a r) end.
Definition nat_max (l : list nat) : option nat :=
  match l with [] => None | a :: r => Some (foldl Nat.max a r) end.

(** grid_variables.py maximum_chunk_dimension = 32768.0 metres *)
Definition maximum_chunk_dimension (e : env) : Z := 131072 * e_tpq e.

(** bgrid.py:1265-1277 on the first layer: row and column ranges of the non-NaN cells. *)
Definition row_has (a : arr) (r : nat) : bool :=
  existsb (fun c => match nd_get a r c with Some (Some _) => true | _ => false end) (seq 0 (ncols a)).
Definition col_has (a : arr) (c : nat) : bool :=
  existsb (fun r => match nd_get a r c with Some (Some _) => true | _ => false end) (seq 0 (nrows a)).
(** [np.where(flags)[0][[0, -1]]] with one added to the second *)
Definition true_range (n : nat) (f : nat -> bool) : res (nat * nat) :=
  let l := filter (fun i => f i = true) (seq 0 n) in
  match head l, last l with Some a, Some b => Ok (a, S b) | _, _ => Raise IndexError end.

Section grid_query.
  Context {T : Type} (O : tile_ops T) (e : env).

  (** bgrid.py:104-128. With tiles but no live one the property returns None, which is false. *)
  Definition g_no_grid (g : grid T) : res bool :=
    match g_tiles g with
    | None => Ok true
    | Some _ => match live_tiles g with
                | [] => Ok false
                | t :: _ => let* b := op_probe O t in Ok (negb b)
                end
    end.

  (** bgrid.py:182-194 *)
  Definition g_has_tiles (g : grid T) : bool := op_sr O && negb (bool_decide (length (live_tiles g) = 0%nat)).

  (** bgrid.py:196-207 *)
  Definition g_layer_names (g : grid T) : list string :=
    match live_tiles g with [] => [] | t :: _ => op_layer_names O t end.

  (** bgrid.py:209-225 *)
  Definition merge_count (acc : dict Z nat) (rc : Z * nat) : dict Z nat :=
    dset acc rc.1 (default 0 (dget acc rc.1) + rc.2)%nat.
  Definition g_cell_count (g : grid T) : res (dict Z nat) :=
    let* cs := rmap (op_cell_count O) (live_tiles g) in
    Ok (foldl merge_count [] (concat cs)).

  (** bgrid.py:227-253 *)
  Definition g_density_count (g : grid T) : res (list Q) :=
    let* cs := rmap (op_density_count O) (live_tiles g) in Ok (concat cs).
  Definition g_density_per_square_meter (g : grid T) : res (list Q) :=
    let* cs := rmap (op_density_sqm O e) (live_tiles g) in Ok (concat cs).

  (** bgrid.py:287-298 *)
  Definition g_coverage_area (g : grid T) : res Q :=
    let* cs := rmap (op_coverage O e) (live_tiles g) in Ok (qsum cs).

  (** bgrid.py:1900-1919 *)
  Definition g_return_layer_values (g : grid T) (layer : string) : res (list Q) :=
    let* cs := rmap (fun t => op_layer_values O t layer) (live_tiles g) in Ok (concat cs).

  (** bgrid.py:1711-1733 *)
  Definition g_return_layer_names (g : grid T) : res (list string) :=
    let* b := g_no_grid g in
    if b then Ok [] else
    let* l := first_found (map (op_first_layers O) (live_tiles g)) in Ok (default [] l).

  (** bgrid.py:488-516 *)
  Definition build_layer_grid (g : grid T) (r : Z) (layer : string) (nodata : cell) : res arr :=
    let* h := rofopt (m_height (g_meta g)) TypeError in
    let* w := rofopt (m_width (g_meta g)) TypeError in
    let* rows := exact_div h r in
    let* cols := exact_div w r in
    Ok (nd_full rows cols (layer_nodata layer nodata)).

  (** bgrid.py:846-852 *)
  Definition read_layers (t : T) (layers : list string) (r : Z) (nodata : cell) (up : bool)
      : res (T * dict string arr) :=
    foldl (fun acc lyr =>
             let* ta := acc in
             let* ro := op_get_layer O e ta.1 lyr r nodata up in
             Ok (ro.1, match ro.2 with Some a => dset ta.2 lyr a | None => ta.2 end)) (Ok (t, [])) layers.

  (** What get_tile_data returns besides the tile: data, geotransform, data_col, data_row,
      tile_cell_count. *)
  Record tile_read := TileRead {
    tr_data : dict string arr; tr_geo : option (Z * Z * Z); tr_col : nat; tr_row : nat; tr_cells : nat }.

  (** bgrid.py:834-838 *)
  Definition eff_up (m : gmeta) (up : bool) : bool := if m_positive_up m then negb up else up.

  (** bgrid.py:793-853 for the tile at flat index [k]; data_col is row * tile_cell_count, as written
      on line 844. *)
  Definition get_tile_data (g : grid T) (k : nat) (r : Z) (layers : list string) (nodata : cell) (up : bool)
      : res (grid T * tile_read) :=
    let* cols := rofopt (option_map ncols (g_tiles g)) TypeError in
    let* n := exact_div (m_tile_size (g_meta g)) r in
    let* t := rofopt (tile_at g k) AttributeError in
    let* td := read_layers t layers r nodata (eff_up (g_meta g) up) in
    Ok (set_tile g k (Some td.1),
        TileRead td.2 (op_geo O t r) (k / cols * n)%nat (k mod cols * n)%nat n).

  (** bgrid.py:1228-1229: the i-th layer found in the tile is written to the i-th result array. *)
  Fixpoint blit_all (data : list arr) (found : list arr) (r0 c0 n : nat) : res (list arr) :=
    match found, data with
    | [], _ => Ok data
    | _ :: _, [] => Raise IndexError
    | a :: fs, d :: ds =>
        let* d' := nd_blit None d r0 (r0 + n) c0 (c0 + n) a in
        let* rest := blit_all ds fs r0 c0 n in
        Ok (d' :: rest)
    end.

  (** State of the loop 1224-1230: the grid, the result arrays, whether anything was written. *)
  Definition layer_step (r : Z) (layers : list string) (nodata : cell) (up : bool)
      (acc : res (grid T * list arr * bool)) (k : nat) : res (grid T * list arr * bool) :=
    let* s := acc in
    let '(g, data, found) := s in
    match tile_at g k with
    | None => Ok s
    | Some _ =>
        let* gt := get_tile_data g k r layers nodata up in
        let* data' := blit_all data (map snd (tr_data gt.2)) (tr_col gt.2) (tr_row gt.2) (tr_cells gt.2) in
        Ok (gt.1, data', found || negb (bool_decide (length (tr_data gt.2) = 0%nat)))
    end.

  Definition pick_rez (g : grid T) (rez : option Z) : res Z :=
    match rez with
    | Some r => Ok r
    | None => match m_rezs (g_meta g) with
              | [r] => Ok r | [] => Raise IndexError | _ => Raise ValueError end
    end.

  (** bgrid.py:1189-1233 *)
  Definition g_get_layers_by_name (g : grid T) (layers : list string) (rez : option Z) (nodata : cell) (up : bool)
      : res (grid T * option (list arr)) :=
    let* ng := g_no_grid g in
    if ng then Raise ValueError else
    let* r := pick_rez g rez in
    let* data := rmap (fun lyr => build_layer_grid g r lyr nodata) layers in
    let* s := foldl (layer_step r layers nodata up) (Ok (g, data, false)) (seq 0 (tiles_size g)) in
    Ok (s.1.1, if s.2 then Some s.1.2 else None).

  (** bgrid.py:1235-1277 *)
  Definition trim_to (rng crng : nat * nat) (a : arr) : arr := nd_slice None a rng.1 rng.2 crng.1 crng.2.
  Definition g_get_layers_trimmed (g : grid T) (layers : list string) (rez : option Z) (nodata : cell) (up : bool)
      : res (grid T * (list arr * (nat * nat) * (nat * nat))) :=
    let* go := g_get_layers_by_name g layers rez nodata up in
    let* data := rofopt go.2 TypeError in
    let* first := rofopt (head data) IndexError in
    let* rr := true_range (nrows first) (row_has first) in
    let* cr := true_range (ncols first) (col_has first) in
    Ok (go.1, (map (trim_to rr cr) data, (rr.1, cr.1), (rr.2, cr.2))).

  (** bgrid.py:1747-1795 with cell_boundaries=True *)
  Definition g_surf_boundaries (g : grid T) (layers : list string) (rez : option Z) (nodata : cell)
      : res (grid T * (list Z * list Z * list arr)) :=
    let* ng := g_no_grid g in
    if ng then Raise ValueError else
    let* r := pick_rez g rez in
    let* gt := g_get_layers_trimmed g layers (Some r) nodata false in
    let '(surfs, mins, maxs) := gt.2 in
    let* x := rofopt (m_ext (g_meta g)) TypeError in
    Ok (gt.1, (slice (arange (x0 x) (x1 x) r) mins.2 (maxs.2 + 1),
               slice (arange (y0 x) (y1 x) r) mins.1 (maxs.1 + 1), surfs)).
  (** ... and with cell_boundaries=False: the middle of each cell. *)
  Definition g_surf_nodes (g : grid T) (layers : list string) (rez : option Z) (nodata : cell)
      : res (grid T * (list Q * list Q * list arr)) :=
    let* ng := g_no_grid g in
    if ng then Raise ValueError else
    let* r := pick_rez g rez in
    let* gt := g_get_layers_trimmed g layers (Some r) nodata false in
    let '(surfs, mins, maxs) := gt.2 in
    let* x := rofopt (m_ext (g_meta g)) TypeError in
    let mid := map (fun v => inject_Z v + (r # 2))%Q in
    Ok (gt.1, (slice (mid (arange (x0 x) (x1 x) r)) mins.2 maxs.2,
               slice (mid (arange (y0 x) (y1 x) r)) mins.1 maxs.1, surfs)).

  (** [layer_values == nodatavalue] or isnan (bgrid.py:1855-1858) *)
  Definition is_nodata (nodata v : cell) : bool :=
    match nodata, v with
    | None, None => true
    | Some a, Some b => Qeq_bool a b
    | _, _ => false
    end.

  (** bgrid.py:1871-1897 for one location that has no value yet. *)
  Definition lookup_xy (sx sy : list Z) (surf : arr) (xy : Z * Z) (old : cell) : res cell :=
    let dx := searchsorted_right sx xy.1 in
    let dy := searchsorted_right sy xy.2 in
    if (dx =? 0)%nat || (dy =? 0)%nat || (dx =? length sx)%nat || (dy =? length sy)%nat then Ok old
    else rofopt (nd_get surf (dy - 1) (dx - 1)) IndexError.

  (** bgrid.py:1854-1897: one resolution. *)
  Definition query_step (layer : string) (nodata : cell) (locs : list (Z * Z))
      (acc : res (grid T * list cell)) (r : Z) : res (grid T * list cell) :=
    let* s := acc in
    if negb (existsb (is_nodata nodata) s.2) then Ok s else
    let* gs := g_surf_boundaries s.1 [layer] (Some r) nodata in
    let '(sx, sy, surfs) := gs.2 in
    let* surf := rofopt (head surfs) IndexError in
    let* vals := rmap (fun lv : (Z * Z) * cell =>
                   if is_nodata nodata lv.2 then lookup_xy sx sy surf lv.1 lv.2 else Ok lv.2) (zip locs s.2) in
    Ok (gs.1, vals).

  (** bgrid.py:1797-1898 for arrays of locations *)
  Definition g_layer_values_at_xy (g : grid T) (xs ys : list Z) (layer : string) (rez : option Z) (nodata : cell)
      : res (grid T * list cell) :=
    if negb (length xs =? length ys)%nat then Raise ValueError else
    let rs := match rez with Some r => [r] | None => merge_sort Z.le (m_rezs (g_meta g)) end in
    foldl (query_step layer nodata (zip xs ys)) (Ok (g, replicate (length xs) nodata)) rs.

  (** bgrid.py:1095-1124: (row, column) of every live tile, by chunk. *)
  Definition live_positions (a : nd (option T)) : list (nat * nat) :=
    omap (fun k => match mjoin (nflat a !! k) with
                   | Some _ => Some (k / ncols a, k mod ncols a)%nat | None => None end)
      (seq 0 (length (nflat a))).
  Definition index_array (a : nd (option T)) : nd (option (nat * nat)) :=
    nd_init (nrows a) (ncols a) (fun r c =>
      match mjoin (nd_get a r c) with Some _ => Some (r, c) | None => None end).
  Definition tile_chunk_indices (g : grid T) (max_chunk : Z) : res (list (list (nat * nat))) :=
    let n := Z.to_nat (Z.max (floor_div max_chunk (m_tile_size (g_meta g))) 1) in
    let* a := rofopt (g_tiles g) ValueError in
    let pos := live_positions a in
    let* r0 := rofopt (nat_min (map fst pos)) ValueError in
    let* c0 := rofopt (nat_min (map snd pos)) ValueError in
    let* r1 := rofopt (nat_max (map fst pos)) ValueError in
    let* c1 := rofopt (nat_max (map snd pos)) ValueError in
    Ok (split_to_approx_shape (nd_slice None (index_array a) r0 (r1 + 1) c0 (c1 + 1)) (n, n)).

  (** bgrid.py:1037-1045: the nodata value used from this layer on. *)
  Definition chunk_nodata (layer : string) (nodata : cell) : cell := layer_nodata layer nodata.

  (** bgrid.py:1030-1052. The nodata value of an integer layer stays in force for the layers after it
      (line 1043). *)
  Definition paste (layer : string) (n minc minr : nat) (acc : res arr) (d : tile_read) : res arr :=
    let* a := acc in
    match dget (tr_data d) layer with
    | Some b => nd_blit None a (tr_col d - minc) (tr_col d - minc + n) (tr_row d - minr) (tr_row d - minr + n) b
    | None => Ok a
    end.
  Fixpoint finalize_layers (layers : list string) (n minc minr maxc maxr : nat) (ds : list tile_read)
      (nodata : cell) (for_gdal : bool) : res (dict string arr) :=
    match layers with
    | [] => Ok []
    | lyr :: rest =>
        let nd1 := chunk_nodata lyr nodata in
        let* a := foldl (paste lyr n minc minr) (Ok (nd_full (maxc - minc + n) (maxr - minr + n) nd1)) ds in
        let a' := if for_gdal then nd_fliplr None (nd_transpose None a) else a in
        let* l := finalize_layers rest n minc minr maxc maxr ds nd1 for_gdal in
        Ok ((lyr, a') :: l)
    end.
  Definition finalize_chunk (ds : list tile_read) (n : nat) (layers : list string) (nodata : cell)
      (for_gdal : bool) : res (dict string arr) :=
    let* minc := rofopt (nat_min (map tr_col ds)) ValueError in
    let* minr := rofopt (nat_min (map tr_row ds)) ValueError in
    let* maxc := rofopt (nat_max (map tr_col ds)) ValueError in
    let* maxr := rofopt (nat_max (map tr_row ds)) ValueError in
    finalize_layers layers n minc minr maxc maxr ds nodata for_gdal.

  (** bgrid.py:1175-1179 *)
  Definition merge_geo (cur : option (Z * Z * Z)) (geo : option (Z * Z * Z)) : res (option (Z * Z * Z)) :=
    match cur, geo with
    | None, _ => Ok geo
    | Some (a, r, b), Some (c, _, d) => Ok (Some (Z.min a c, r, Z.max b d))
    | Some _, None => Raise TypeError
    end.

  (** A yielded chunk: geotransform and data. curmaxdimension is not used by the callers. *)
  Definition read_chunk (r : Z) (layers : list string) (nodata : cell) (up for_gdal : bool)
      (acc : res (grid T * list (option (Z * Z * Z) * dict string arr))) (index_list : list (nat * nat))
      : res (grid T * list (option (Z * Z * Z) * dict string arr)) :=
    let* s := acc in
    let* cols := rofopt (option_map ncols (g_tiles s.1)) TypeError in
    let* q := foldl (fun acc rc =>
                let* a := acc in
                let '(g, geo, ds) := a in
                let* gt := get_tile_data g (rc.1 * cols + rc.2)%nat r layers nodata up in
                let* geo' := merge_geo geo (tr_geo gt.2) in
                Ok (gt.1, geo', ds ++ [gt.2])) (Ok (s.1, None, [])) index_list in
    let '(g, geo, ds) := q in
    if forallb (fun d => bool_decide (length (tr_data d) = 0%nat)) ds then Ok (g, s.2) else
    let* n := rofopt (option_map tr_cells (head ds)) IndexError in
    if existsb (fun d => (tr_cells d =? 0)%nat) ds then Raise AssertionError else
    let* data := finalize_chunk ds n layers nodata for_gdal in
    Ok (g, s.2 ++ [(geo, data)]).

  (** bgrid.py:1126-1187. Simplification: the generator is run to the end. *)
  Definition g_get_chunks_of_tiles (g : grid T) (r : Z) (layers : list string) (nodata : cell) (up : bool)
      (max_chunk : option Z) (for_gdal : bool)
      : res (grid T * list (option (Z * Z * Z) * dict string arr)) :=
    let* idx := tile_chunk_indices g (default (maximum_chunk_dimension e) max_chunk) in
    foldl (read_chunk r layers nodata up for_gdal) (Ok (g, [])) idx.
End grid_query.
