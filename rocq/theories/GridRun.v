(** bgrid.py: gridding of a BathyGrid (lines 434-459, 892-1002, 1279-1521, 1939-1954). *)
From Verif Require Import Py Nd Numpy Point Bin Algorithms Tile Time Meta Disk Grid.
Open Scope Z_scope.

Section grid_run.
  Context {T : Type} (O : tile_ops T) (e : env).

  (** bgrid.py:892-936: the tile on one side of flat index [k]; "above" is the previous row. *)
  Definition neighbour_index (rows cols k : nat) (s : side) : option nat :=
    let r := (k / cols)%nat in
    let c := (k mod cols)%nat in
    match s with
    | Above => if (r =? 0)%nat then None else Some (k - cols)%nat
    | Right => if (S c <? cols)%nat then Some (S k) else None
    | Below => if (S r <? rows)%nat then Some (k + cols)%nat else None
    | Left => if (c =? 0)%nat then None else Some (k - 1)%nat
    end.
  Definition neighbour (g : grid T) (k : nat) (s : side) : option T :=
    match g_tiles g with
    | Some a => match neighbour_index (nrows a) (ncols a) k s with Some j => tile_at g j | None => None end
    | None => None
    end.
  (** Lookup by position stands for [np.where(self.tiles == til)]. *)
  Definition get_tile_neighbors (g : grid T) (k : nat) : list (option T) :=
    map (neighbour g k) [Above; Right; Below; Left].

  (** bgrid.py:938-1002 *)
  Definition neighbour_strip (g : grid T) (k : nat) (buf : Q) (s : side) : res (list point) :=
    match neighbour g k s with Some t => op_strip O t s buf | None => Ok [] end.
  Definition get_tile_neighbor_points (g : grid T) (k : nat) (buf : Q) : res (option (list point)) :=
    let* l := rmap (neighbour_strip g k buf) [Above; Right; Below; Left] in
    Ok (match concat l with [] => None | d => Some d end).

  (** bgrid.py:1322-1330, 1434-1445 *)
  Definition border_for (a : gargs) (g : grid T) (k : nat) (buf : res Q) : res (option (list point)) :=
    if bool_decide (ga_alg a = "cube") then
      let* q := buf in
      let* b := get_tile_neighbor_points g k q in
      Ok (match ga_border a, b with
          | Some gb, Some b => Some (b ++ gb)
          | Some gb, None => Some gb
          | None, b => b
          end)
    else Ok None.

  Definition sr_root_names : list string := ["SRGrid_Root"; "SRGridZarr_Root"].
  Definition name_in (n : gname) (l : list string) : bool :=
    match n with NRoot s => bool_decide (s ∈ l) | NTile _ _ => false end.

  (** bgrid.py:1331-1339, 1945-1953: the resolution handed to the tile. *)
  Definition tile_rez (m : gmeta) (auto : string) (rez : option Z) : option Z :=
    if negb (op_sr O) && negb (bool_decide (auto = "")) then None
    else if op_sr O && negb (bool_decide (auto = "")) && negb (name_in (m_name m) sr_root_names) then None
    else rez.

  (** bgrid.py:1342-1344 *)
  Definition note_rezs (g : grid T) (rs : list Z) : grid T :=
    g <| g_meta := g_meta g <| m_rezs := foldl (fun acc r => if bool_decide (r ∈ acc) then acc else acc ++ [r])
                                           (m_rezs (g_meta g)) rs |> |>.

  (** bgrid.py:1312-1321, 1421-1430: whether the tile is skipped, and clear_existing from here on. *)
  Definition skip_tile (a : gargs) (clear : bool) (t : T) : bool :=
    bool_decide (ga_regrid a = "update") && negb clear && negb (op_changed O t).
  Definition next_clear (a : gargs) (clear : bool) : bool :=
    if bool_decide (ga_regrid a = "update") && op_sr O then true else clear.

  (** [tile.width / 10], in ticks *)
  Definition tenth_width (t : T) : Q := (op_width O t # 10)%Q.

  (** bgrid.py:1308-1348: one tile; the state includes clear_existing. *)
  Definition grid_step (a : gargs) (auto : string) (rez : option Z) (s : grid T * bool) (k : nat)
      : out (grid T * bool) :=
    let (g, clear) := s in
    match tile_at g k with
    | None => let r := save_reload O g k SaveGrid in Out (st_of r, clear) (ev_of r) (exn_of r)
    | Some t =>
        if skip_tile a clear t then Out (note_rezs g (op_rezs O t), clear) [] None
        else
          let clear' := next_clear a clear in
          match border_for a g k (Ok (tenth_width t)) with
          | Raise x => Out (g, clear') [] (Some x)
          | Ok b =>
              let (r, rz) := op_grid O e t (GArgs (ga_alg a) (tile_rez (g_meta g) auto rez) clear' auto
                                              (ga_regrid a) (ga_params a) b) in
              let ev := prims_in (FFolder (op_folder O t)) (ev_of r) in
              let g1 := set_tile g k (Some (st_of r)) in
              match exn_of r with
              | Some x => Out (g1, clear') ev (Some x)
              | None =>
                  let r2 := save_reload O (note_rezs g1 rz) k SaveGrid in
                  Out (st_of r2, clear') (ev ++ ev_of r2) (exn_of r2)
              end
          end
    end.

  (** bgrid.py:1349-1350, 1458-1459 *)
  Definition finish_grid (g : grid T) : grid T :=
    g <| g_meta := g_meta g <| m_rezs := np_unique (m_rezs (g_meta g)) |> |>.

  (** bgrid.py:1279-1350 *)
  Definition grid_regular (g : grid T) (a : gargs) (auto : string) (rez : option Z) : out (grid T) :=
    let r := oloop (grid_step a auto rez) (seq 0 (tiles_size g)) (g, ga_clear a) in
    match exn_of r with
    | Some x => Out (st_of r).1 (ev_of r) (Some x)
    | None => let g1 := finish_grid (st_of r).1 in Out g1 (ev_of r ++ save_grid g1) None
    end.

  (** One entry of data_for_workers (bgrid.py:1446) with its flat index. *)
  Record job := Job { j_idx : nat; j_tile : T; j_args : gargs }.

  Definition first_exn (l : list (option exn)) : option exn :=
    match omap id l with [] => None | x :: _ => Some x end.

  (** bgrid.py:1365-1370 *)
  Definition store_result (g : grid T) (jt : nat * T) : out (grid T) :=
    save_reload O (set_tile g jt.1 (Some jt.2)) jt.1 SaveGrid.

  (** bgrid.py:1352-1376. The workers run on copies of the tiles; when one raises, gather raises and no
      result is kept. *)
  Definition run_jobs (g : grid T) (js : list job) : out (grid T) :=
    let rs := map (fun j => op_grid O e (j_tile j) (j_args j)) js in
    let ev := concat (zip_with (fun j (r : out T * list Z) =>
                prims_in (FFolder (op_folder O (j_tile j))) (ev_of r.1)) js rs) in
    match first_exn (map (fun r : out T * list Z => exn_of r.1) rs) with
    | Some x => Out g ev (Some x)
    | None =>
        let r := oloop store_result (zip (map j_idx js) (map (fun r : out T * list Z => st_of r.1) rs)) g in
        match exn_of r with
        | Some x => Out (st_of r) (ev ++ ev_of r) (Some x)
        | None => Out (note_rezs (st_of r) (concat (map snd rs))) (ev ++ ev_of r) None
        end
    end.

  (** bgrid.py:1435-1438 *)
  Definition parallel_buffer (t : T) (auto : string) (rez : option Z) : res Q :=
    if negb (bool_decide (auto = "")) then Ok (tenth_width t)
    else let* r := rofopt rez TypeError in Ok (qmin (tenth_width t) (inject_Z (r * 3))).

  (** bgrid.py:1419-1454: one tile; [n] is the number of workers. *)
  Definition parallel_step (n : nat) (a : gargs) (auto : string) (rez : option Z)
      (s : grid T * bool * list job) (k : nat) : out (grid T * bool * list job) :=
    let '(g, clear, js) := s in
    match tile_at g k with
    | None => Out s [] None
    | Some t =>
        if skip_tile a clear t then Out (note_rezs g (op_rezs O t), clear, js) [] None
        else
          let clear' := next_clear a clear in
          match border_for a g k (parallel_buffer t auto rez) with
          | Raise x => Out (g, clear', js) [] (Some x)
          | Ok b =>
              let js' := js ++ [Job k t (GArgs (ga_alg a) (tile_rez (g_meta g) auto rez) clear' auto
                                          (ga_regrid a) (ga_params a) b)] in
              if (length js' =? n)%nat
              then let r := run_jobs g js' in Out (st_of r, clear', []) (ev_of r) (exn_of r)
              else Out (g, clear', js') [] None
          end
    end.

  (** bgrid.py:1378-1459 *)
  Definition grid_parallel (n : nat) (g : grid T) (a : gargs) (auto : string) (rez : option Z) : out (grid T) :=
    let r := oloop (parallel_step n a auto rez) (seq 0 (tiles_size g)) (g, ga_clear a, []) in
    match exn_of r with
    | Some x => Out (st_of r).1.1 (ev_of r) (Some x)
    | None =>
        let r2 := match (st_of r).2 with [] => Out (st_of r).1.1 [] None | js => run_jobs (st_of r).1.1 js end in
        match exn_of r2 with
        | Some x => Out (st_of r2) (ev_of r ++ ev_of r2) (Some x)
        | None => let g1 := finish_grid (st_of r2) in Out g1 (ev_of r ++ ev_of r2 ++ save_grid g1) None
        end
    end.

  (** bgrid.py:434-459 *)
  Definition g_resolution_by_density (g : grid T) : res Z :=
    let* rs := rmap (op_density_rez O e) (live_tiles g) in
    Ok (default 0 (zmax rs)).

  (** bgrid.py:1507-1514: the resolution used when none is given. *)
  Definition auto_rez (g : grid T) (auto : string) : res (option Z) :=
    if bool_decide (m_name (g_meta g) = NRoot "VRGridTile_Root") then Ok None
    else if bool_decide (auto = "depth") then
      let* r := m_calculate_resolution_lookup e (g_meta g) in Ok (Some r)
    else if bool_decide (auto = "density") then
      let* r := g_resolution_by_density g in Ok (Some r)
    else Ok None.

  (** bgrid.py:1461-1521. [dask] is the number of workers when use_dask is set;
      [number_of_tiles / 8] (bgrid.py:1410) raises TypeError when number_of_tiles is None. *)
  Definition g_grid (g : grid T) (a : gargs) (dask : option nat) : out (grid T) :=
    let m := g_meta g in
    if negb (bool_decide (m_algorithm m = "")) && negb (bool_decide (m_algorithm m = ga_alg a)) && negb (ga_clear a)
    then Out g [] (Some ValueError) else
    let m1 := m <| m_algorithm := ga_alg a |>
                <| m_grez := match ga_rez a with Some r => RezGiven r | None => RezUnset end |>
                <| m_params := ga_params a |> in
    let g1 := g <| g_meta := m1 |> in
    if g_is_empty g1 then Out g1 [] (Some ValueError) else
    let auto := match ga_rez a with Some _ => "" | None => str_lower (ga_mode a) end in
    let g2 := match ga_rez a with
              | Some _ => g1
              | None => g1 <| g_meta := m1 <| m_grez := RezAuto (ga_mode a) |> |> end in
    match (match ga_rez a with Some r => Ok (Some r) | None => auto_rez g2 auto end) with
    | Raise x => Out g2 [] (Some x)
    | Ok rez =>
        let g3 := g2 <| g_meta := g_meta g2 <| m_rezs := [] |> |> in
        match dask with
        | Some n => match m_ntiles (g_meta g3) with
                    | Some _ => grid_parallel n g3 a auto rez
                    | None => Out g3 [] (Some TypeError)
                    end
        | None => grid_regular g3 a auto rez
        end
    end.
End grid_run.
