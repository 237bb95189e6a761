(** bgrid.py, grids.py: BathyGrid, over the operations of its tiles. The tiles of an SRGrid (and of
    the sub-grids of a VRGridTile) are SRTiles; those of a VRGridTile are BathyGrids. *)
From Verif Require Import Py Nd Numpy Point Bin Algorithms Tile Time Meta Disk.
Open Scope Z_scope.

(** The state after a call, the storage steps it made, and the exception it raised, if any. Storage
    steps are relative to the folder of the object. *)
Record out (S : Type) := Out { st_of : S; ev_of : list prim; exn_of : option exn }.
Arguments Out {S} _ _ _.
Arguments st_of {S} _.
Arguments ev_of {S} _.
Arguments exn_of {S} _.

(** [for a in l: s = f(s, a)], stopping at the first exception. *)
Fixpoint oloop {A S} (f : S -> A -> out S) (l : list A) (s : S) : out S :=
  match l with
  | [] => Out s [] None
  | a :: r =>
      let o := f s a in
      match exn_of o with
      | Some x => o
      | None => let o2 := oloop f r (st_of o) in Out (st_of o2) (ev_of o ++ ev_of o2) (exn_of o2)
      end
  end.

(** Arguments of grid() (bgrid.py:1461-1463) that are passed on to the tiles. *)
Record gargs := GArgs {
  ga_alg : string; ga_rez : option Z; ga_clear : bool; ga_mode : string; ga_regrid : string;
  ga_params : option params; ga_border : option (list point) }.

(** The four sides of a tile, in the order of get_tile_neighbors (bgrid.py:892-936). *)
Inductive side := Above | Right | Below | Left.

(** The first value found by a loop that returns as soon as it has one (bgrid.py:1721-1733). *)
Fixpoint first_found {A} (l : list (res (option A))) : res (option A) :=
  match l with
  | [] => Ok None
  | Ok None :: r => first_found r
  | x :: _ => x
  end.

(** What a BathyGrid calls on its tiles. [op_sr] is both [isinstance(tile, SRTile)] and
    [sub_type in ['srtile', 'quadtile']]. [op_save] is the content of _save_tile, [op_reload] the
    effect on the tile in memory of reading it back. *)
Record tile_ops (T : Type) := TileOps {
  op_sr : bool;
  op_build : gmeta -> bool -> Z -> Z -> T;
  op_folder : T -> gname;
  op_add : T -> list point -> add_args -> out T;
  op_remove : T -> string -> out T;
  op_empty : T -> bool;
  op_count : T -> nat;
  op_save : option T -> save_mode -> list prim;
  op_reload : save_mode -> T -> T;
  op_changed : T -> bool;
  op_rezs : T -> list Z;
  op_width : T -> Z;
  op_strip : T -> side -> Q -> res (list point);
  op_grid : env -> T -> gargs -> out T * list Z;
  op_density_rez : env -> T -> res Z;
  op_probe : T -> res bool;
  op_get_layer : env -> T -> string -> Z -> cell -> bool -> res (T * option arr);
  op_geo : T -> Z -> option (Z * Z * Z);
  op_layer_names : T -> list string;
  op_first_layers : T -> res (option (list string));
  op_cell_count : T -> res (dict Z nat);
  op_density_count : T -> res (list Q);
  op_density_sqm : env -> T -> res (list Q);
  op_coverage : env -> T -> res Q;
  op_layer_values : T -> string -> res (list Q) }.
Arguments op_sr {T} _.
Arguments op_build {T} _ _ _ _ _.
Arguments op_folder {T} _ _.
Arguments op_add {T} _ _ _ _.
Arguments op_remove {T} _ _ _.
Arguments op_empty {T} _ _.
Arguments op_count {T} _ _.
Arguments op_save {T} _ _ _.
Arguments op_reload {T} _ _ _.
Arguments op_changed {T} _ _.
Arguments op_rezs {T} _ _.
Arguments op_width {T} _ _.
Arguments op_strip {T} _ _ _ _.
Arguments op_grid {T} _ _ _ _.
Arguments op_density_rez {T} _ _ _.
Arguments op_probe {T} _ _.
Arguments op_get_layer {T} _ _ _ _ _ _ _.
Arguments op_geo {T} _ _ _.
Arguments op_layer_names {T} _ _.
Arguments op_first_layers {T} _ _.
Arguments op_cell_count {T} _ _.
Arguments op_density_count {T} _ _.
Arguments op_density_sqm {T} _ _ _.
Arguments op_coverage {T} _ _ _.
Arguments op_layer_values {T} _ _ _.

(** tile_x_origin, tile_y_origin, tile_edges_x, tile_edges_y (grids.py:33-37) *)
Record geom := Geom { gx : nd Z; gy : nd Z; gex : list Z; gey : list Z }.

(** A BathyGrid. [g_disk]: output_folder is set. The attribute [data] is not kept: it is set by every
    add_points before it is read (bgrid.py:700). *)
Record grid (T : Type) := mkGrid {
  g_meta : gmeta; g_geom : option geom; g_mask : option (nd bool);
  g_tiles : option (nd (option T)); g_disk : bool }.
Arguments mkGrid {T} _ _ _ _ _.
Arguments g_meta {T} _.
Arguments g_geom {T} _.
Arguments g_mask {T} _.
Arguments g_tiles {T} _.
Arguments g_disk {T} _.
Global Instance eta_grid T : Settable (grid T) :=
  settable! (@mkGrid T) <g_meta; g_geom; g_mask; g_tiles; g_disk>.

(** The data argument of add_points: a structured array or Dataset with the required variables, or
    something _validate_input_data rejects (bgrid.py:2130-2148). *)
Inductive input := GoodData (d : list point) | BadData.

Definition new_grid_obj {T} (m : gmeta) (disk : bool) : grid T := mkGrid m None None None disk.

(** maingrid.py:6-20, 64-77 and convenience.py:136-140: a new single resolution grid with the default
    origin 0, 0. *)
Definition sr_root_name (zarr : bool) : gname := NRoot (if zarr then "SRGridZarr_Root" else "SRGrid_Root").
Definition new_sr_meta (ox oy size : Z) (backscatter zarr : bool) : gmeta :=
  new_meta ox oy size 0 true backscatter (sr_root_name zarr) true zarr None.
(** maingrid.py:22-36, 80-93 *)
Definition vr_root_name (zarr : bool) : gname := NRoot (if zarr then "VRGridTileZarr_Root" else "VRGridTile_Root").
Definition new_vr_meta (ox oy size sub : Z) (backscatter zarr : bool) : gmeta :=
  new_meta ox oy size sub true backscatter (vr_root_name zarr) false zarr None.

Definition zmin (l : list Z) : option Z :=
  match l with [] => None | a :: r => Some (foldl Z.min a r) end.
Definition zmax (l : list Z) : option Z :=
  match l with [] => None | a :: r => Some (foldl Z.max a r) end.

(** The extents of the points; min() of an empty array raises ValueError (bgrid.py:580-586). *)
Definition data_ext (d : list point) : res ext :=
  match zmin (map px d), zmin (map py d), zmax (map px d), zmax (map py d) with
  | Some a, Some b, Some c, Some d => Ok (Ext a b c d)
  | _, _, _, _ => Raise ValueError
  end.

(** grids.py:94-103 for one axis. *)
Definition adjust_lo (lo origin ts : Z) : Z := floor_div (lo - origin) ts * ts.
Definition adjust_hi (hi origin ts : Z) : Z :=
  let h := ceil_div (hi - origin) ts * ts in if h =? hi then h + ts else h.
(** grids.py:89-103 *)
Definition adjust_extents (m : gmeta) (x : ext) : ext :=
  if m_can_grow m then
    Ext (adjust_lo (x0 x) (m_origin_x m) (m_tile_size m)) (adjust_lo (y0 x) (m_origin_y m) (m_tile_size m))
        (adjust_hi (x1 x) (m_origin_x m) (m_tile_size m)) (adjust_hi (y1 x) (m_origin_y m) (m_tile_size m))
  else x.

Section grid.
  Context {T : Type} (O : tile_ops T).

  (** grids.py:49-58 *)
  Definition g_is_empty (g : grid T) : bool :=
    match g_tiles g with
    | None => true
    | Some a => forallb (fun t => match t with None => true | Some _ => false end) (nflat a)
    end.

  (** The tiles that exist, in flat order ([for tile in self.tiles.flat: if tile:]). *)
  Definition live_tiles (g : grid T) : list T :=
    match g_tiles g with None => [] | Some a => omap id (nflat a) end.

  (** grids.py:60-68 *)
  Definition g_points_count (g : grid T) : nat := list_sum (map (op_count O) (live_tiles g)).

  (** grids.py:123-129: where the present tiles go in the new arrays. *)
  Definition old_corner (g : grid T) (xs ys : list Z) : res (nat * nat) :=
    let* ge := rofopt (g_geom g) TypeError in
    let* oy := rofopt (nd_get (gy ge) 0 0) IndexError in
    let* ox := rofopt (nd_get (gx ge) 0 0) IndexError in
    let* r := rofopt (index_of ys oy) IndexError in
    let* c := rofopt (index_of xs ox) IndexError in
    Ok (r, c).
  Definition existing_mask (g : grid T) (xs ys : list Z) : res (nd bool) :=
    let* rc := old_corner g xs ys in
    let* ge := rofopt (g_geom g) TypeError in
    Ok (nd_fill false (nd_full (length ys) (length xs) false)
          rc.1 (rc.1 + nrows (gx ge)) rc.2 (rc.2 + ncols (gx ge)) true).

  (** grids.py:105-138, after the extents [x] were stored by _init_from_extents or _update_extents
      (140-182). An exception leaves the attributes assigned so far. *)
  Definition build_grid (g : grid T) (x : ext) : grid T * option exn :=
    let m := g_meta g in
    let x' := adjust_extents m x in
    let g1 := g <| g_meta := m <| m_ext := Some x' |> |> in
    let xs := arange (x0 x') (x1 x') (m_tile_size m) in
    let ys := arange (y0 x') (y1 x') (m_tile_size m) in
    let mask := if negb (g_is_empty g) && m_can_grow m
                then let* k := existing_mask g xs ys in Ok (Some k) else Ok (g_mask g) in
    match mask with
    | Raise e => (g1, Some e)
    | Ok k =>
        match with_last_edge xs (m_tile_size m), with_last_edge ys (m_tile_size m) with
        | Ok ex, Ok ey =>
            (g <| g_mask := k |>
               <| g_geom := Some (Geom (meshgrid_x xs ys) (meshgrid_y xs ys) ex ey) |>
               <| g_meta := m <| m_ext := Some x' |> <| m_width := Some (x1 x' - x0 x') |>
                              <| m_height := Some (y1 x' - y0 x') |>
                              <| m_max_tiles := Some (length ys * length xs)%nat |> |>, None)
        | _, _ => (g1 <| g_mask := k |>, Some IndexError)
        end
    end.

  (** grids.py:178-181 *)
  Definition join_ext (a : ext) (b : option ext) : res ext :=
    match b with
    | Some b => Ok (Ext (Z.min (x0 a) (x0 b)) (Z.min (y0 a) (y0 b)) (Z.max (x1 a) (x1 b)) (Z.max (y1 a) (y1 b)))
    | None => Raise TypeError
    end.

  (** bgrid.py:569-588 *)
  Definition update_base_grid (g : grid T) (d : list point) : grid T * option exn :=
    if g_is_empty g then
      if m_can_grow (g_meta g) then
        match data_ext d with Ok x => build_grid g x | Raise e => (g, Some e) end
      else match m_ext (g_meta g) with Some x => build_grid g x | None => (g, Some ValueError) end
    else if m_can_grow (g_meta g) then
      match (let* x := data_ext d in join_ext x (m_ext (g_meta g))) with
      | Ok x => build_grid g x | Raise e => (g, Some e) end
    else (g, None).

  (** bgrid.py:604-612 *)
  Definition place_tiles (g : grid T) : grid T * option exn :=
    match g_geom g with
    | None => (g, Some AttributeError)
    | Some ge =>
        let shape_r := nrows (gx ge) in
        let shape_c := ncols (gx ge) in
        if g_is_empty g then (g <| g_tiles := Some (nd_full shape_r shape_c None) |>, None)
        else if m_can_grow (g_meta g) then
          match g_mask g, g_tiles g with
          | Some k, Some a =>
              match mask_assign (nflat k) (replicate (shape_r * shape_c) None) (nflat a) with
              | Ok fl => (g <| g_tiles := Some (Nd shape_r shape_c fl) |>, None)
              | Raise e => (g, Some e)
              end
          | _, _ => (g, Some IndexError)
          end
        else (g, None)
    end.

  (** backends.py:25-45, 208-217: arrays first, then metadata.json. *)
  Definition save_grid (g : grid T) : list prim :=
    if g_disk g then
      let o (f : geom -> nd Z) := match g_geom g with Some ge => f ge | None => Nd 0 0 [] end in
      let l (f : geom -> list Z) := match g_geom g with Some ge => f ge | None => [] end in
      PMkdir [] ::
      save_array [FGridArray "tile_x_origin"] (LOrigins (o gx)) ++
      save_array [FGridArray "tile_y_origin"] (LOrigins (o gy)) ++
      save_array [FGridArray "tile_edges_x"] (LInts (l gex)) ++
      save_array [FGridArray "tile_edges_y"] (LInts (l gey)) ++
      save_array [FGridArray "existing_tile_mask"] (LMask (default (Nd 0 0 []) (g_mask g))) ++
      [PWrite [FMeta] (LGridMeta (g_meta g))]
    else [].

  (** backends.py:219-244 within the folder of the grid. *)
  Definition save_tile_at (disk : bool) (x y : Z) (t : option T) (m : save_mode) : list prim :=
    if disk && op_sr O then prims_in (FFolder (NTile x y)) (op_save O t m) else [].
  (** backends.py:289-319 after a save *)
  Definition reload_at (disk : bool) (m : save_mode) (t : option T) : option T :=
    if disk && op_sr O then option_map (op_reload O m) t else t.

  (** The arguments of the nested add_points (bgrid.py:656). *)
  Definition nested_args (a : add_args) : add_args :=
    AddArgs (a_container a) [] None None None None (a_now a).

  (** bgrid.py:645-662: one location. *)
  Definition add_to_tile (m : gmeta) (disk : bool) (ge : geom) (a : add_args) (d : list point) (binnum : list Z)
      (fl : list (option T)) (ul : Z) : out (list (option T)) :=
    let k := Z.to_nat ul in
    match fl !! k, nflat (gx ge) !! k, nflat (gy ge) !! k with
    | Some cur, Some x, Some y =>
        let pts := mask_select (map (fun b => bool_decide (b = ul)) binnum) d in
        let r := op_add O (default (op_build O m disk x y) cur) pts (nested_args a) in
        let ev := prims_in (FFolder (op_folder O (st_of r))) (ev_of r) in
        match exn_of r with
        | Some e => Out (<[k := Some (st_of r)]> fl) ev (Some e)
        | None =>
            let t := if op_empty O (st_of r) then None else Some (st_of r) in
            Out (<[k := reload_at disk SavePoints t]> fl) (ev ++ save_tile_at disk x y t SavePoints) None
        end
    | _, _, _ => Out fl [] (Some IndexError)
    end.

  Definition count_live (fl : list (option T)) : Z := Z.of_nat (length (omap id fl)).

  (** bgrid.py:615-663 *)
  Definition add_points_to_tiles (g : grid T) (d : list point) (a : add_args) : out (grid T) :=
    match g_geom g, g_tiles g with
    | Some ge, Some ts =>
        let ev := save_grid g in
        match bin2d_with_indices (map xy_of d) (gex ge) (gey ge) with
        | Raise e => Out g ev (Some e)
        | Ok binnum =>
            let r := oloop (add_to_tile (g_meta g) (g_disk g) ge a d binnum) (np_unique binnum) (nflat ts) in
            let g1 := g <| g_tiles := Some (Nd (nrows ts) (ncols ts) (st_of r)) |> in
            match exn_of r with
            | Some e => Out g1 (ev ++ ev_of r) (Some e)
            | None => Out (g1 <| g_meta := g_meta g <| m_ntiles := Some (count_live (st_of r)) |> |>)
                          (ev ++ ev_of r) None
            end
        end
    | _, _ => Out g [] (Some AttributeError)
    end.

  (** bgrid.py:665-706 *)
  Definition g_add_points (g : grid T) (inp : input) (a : add_args) : out (grid T) :=
    if dmem (m_container (g_meta g)) (a_container a) then Out g [] (Some ValueError) else
    match inp with
    | BadData => Out g [] (Some ValueError)
    | GoodData d =>
        let (m1, e1) := update_metadata (g_meta g) a in
        let g1 := g <| g_meta := m1 |> in
        match e1 with
        | Some e => Out g1 [] (Some e)
        | None =>
            let (g2, e2) := update_base_grid g1 d in
            match e2 with
            | Some e => Out g2 [] (Some e)
            | None =>
                let (g3, e3) := place_tiles g2 in
                match e3 with
                | Some e => Out g3 [] (Some e)
                | None =>
                    let r := add_points_to_tiles g3 d a in
                    match exn_of r with
                    | Some e => r
                    | None =>
                        let g4 := st_of r in
                        Out (g4 <| g_meta := g_meta g4 <| m_mean_depth := batch_mean_depth d |> |>) (ev_of r) None
                    end
                end
            end
        end
    end.

  Definition set_tile (g : grid T) (k : nat) (t : option T) : grid T :=
    match g_tiles g with
    | Some a => g <| g_tiles := Some (Nd (nrows a) (ncols a) (<[k := t]> (nflat a))) |>
    | None => g
    end.

  (** bgrid.py:708-719 for an existing tile. [flat[i] = False] raises IndexError when the mask is
      smaller than the tile array, and [-= 1] raises TypeError when number_of_tiles is None. *)
  Definition remove_tile (g : grid T) (k : nat) : grid T * option exn :=
    let mask := match g_mask g with
                | Some b => if existsb id (nflat b)
                            then if (k <? length (nflat b))%nat
                                 then Ok (Some (Nd (nrows b) (ncols b) (<[k := false]> (nflat b))))
                                 else Raise IndexError
                            else Ok (Some b)
                | None => Ok None
                end in
    match mask with
    | Raise e => (g, Some e)
    | Ok b =>
        match m_ntiles (g_meta g) with
        | Some n => (set_tile (g <| g_mask := b |> <| g_meta := g_meta g <| m_ntiles := Some (n - 1) |> |>) k None, None)
        | None => (g <| g_mask := b |>, Some TypeError)
        end
    end.

  Definition tile_at (g : grid T) (k : nat) : option T :=
    match g_tiles g with Some a => mjoin (nflat a !! k) | None => None end.
  Definition origin_at (g : grid T) (k : nat) : option (Z * Z) :=
    match g_geom g with
    | Some ge => match nflat (gx ge) !! k, nflat (gy ge) !! k with
                 | Some x, Some y => Some (x, y) | _, _ => None end
    | None => None
    end.

  (** _save_tile and _load_tile for flat index [k] *)
  Definition save_reload (g : grid T) (k : nat) (m : save_mode) : out (grid T) :=
    if g_disk g && op_sr O then
      match origin_at g k with
      | Some (x, y) =>
          Out (set_tile g k (reload_at (g_disk g) m (tile_at g k))) (save_tile_at (g_disk g) x y (tile_at g k) m) None
      | None => Out g [] (Some IndexError)
      end
    else Out g [] None.

  (** bgrid.py:741-751: one tile. *)
  Definition remove_from_tile (c : string) (g : grid T) (k : nat) : out (grid T) :=
    let r1 := match tile_at g k with
              | None => Out g [] None
              | Some t =>
                  let r := op_remove O t c in
                  let ev := prims_in (FFolder (op_folder O t)) (ev_of r) in
                  let g1 := set_tile g k (Some (st_of r)) in
                  match exn_of r with
                  | Some e => Out g1 ev (Some e)
                  | None => if op_empty O (st_of r)
                            then let (g2, e2) := remove_tile g1 k in Out g2 ev e2
                            else Out g1 ev None
                  end
              end in
    match exn_of r1 with
    | Some e => r1
    | None => let r2 := save_reload (st_of r1) k SavePoints in
              Out (st_of r2) (ev_of r1 ++ ev_of r2) (exn_of r2)
    end.

  Definition tiles_size (g : grid T) : nat :=
    match g_tiles g with Some a => length (nflat a) | None => 0%nat end.

  (** bgrid.py:721-754 *)
  Definition g_remove_points (g : grid T) (c : string) : out (grid T) :=
    if negb (dmem (m_container (g_meta g)) c) then Out g [] None else
    let g1 := g <| g_meta := g_meta g <| m_container := ddel (m_container (g_meta g)) c |>
                                      <| m_timestamp := ddel (m_timestamp (g_meta g)) c |> |> in
    let r := if g_is_empty g1 then Out g1 [] None
             else oloop (remove_from_tile c) (seq 0 (tiles_size g1)) g1 in
    match exn_of r with
    | Some e => r
    | None =>
        let g2 := if g_is_empty (st_of r) then st_of r <| g_tiles := None |> else st_of r in
        Out g2 (ev_of r ++ save_grid g2) None
    end.

  (** bgrid.py:313-324 *)
  Definition g_changed (g : grid T) : bool := existsb (op_changed O) (live_tiles g).
End grid.
