(** backends.py: saving a grid to another folder, loading a grid, and what is left on disk when the process
    dies. [fs] here is the content of the folder of the object that is saved or loaded. *)
From Verif Require Import Py Nd Numpy Point Bin Algorithms Tile Time Meta Disk Grid GridOps.
Open Scope Z_scope.

(** The content of the folder [n], seen from inside. *)
Definition fsub (f : fs) (n : fname) : fs :=
  omap (fun kv : path * node => match kv.1 with
                                | n' :: p => if decide (n' = n) then Some (p, kv.2) else None
                                | [] => None end) f.

(** backends.py:71-77: attributes that are None are stored as 'None' and loaded as 0.0. *)
Definition loaded_meta (m : gmeta) : gmeta :=
  m <| m_ext := Some (default (Ext 0 0 0 0) (m_ext m)) |>
    <| m_width := Some (default 0 (m_width m)) |> <| m_height := Some (default 0 (m_height m)) |>.

Definition read_origins (f : fs) (key : string) : res (nd Z) :=
  match fs_read f [FGridArray key] with Some (LOrigins a) => Ok a | _ => Raise FileNotFoundError end.
Definition read_mask (f : fs) : res (nd bool) :=
  match fs_read f [FGridArray "existing_tile_mask"] with Some (LMask a) => Ok a | _ => Raise FileNotFoundError end.

Section load.
  Context {T : Type} (load_one : fs -> res (option T)).

  (** backends.py:47-79, 277-287, 321-352. [load_one] loads the tile or sub-grid from its folder (None: no
      folder). Simplification: the arrays of metadata written before version 1.1.2 are not read. *)
  Definition load_grid (f : fs) : res (grid T) :=
    if negb (fs_exists f []) then Raise ValueError else
    match fs_read f [FMeta] with
    | Some (LGridMeta m) =>
        let* gx := read_origins f "tile_x_origin" in
        let* gy := read_origins f "tile_y_origin" in
        let* ex := read_ints f [FGridArray "tile_edges_x"] in
        let* ey := read_ints f [FGridArray "tile_edges_y"] in
        let* mask := read_mask f in
        let* tiles := rmap (fun xy : Z * Z => load_one (fsub f (FFolder (NTile xy.1 xy.2)))) (zip (nflat gx) (nflat gy)) in
        Ok (mkGrid (loaded_meta m) (Some (Geom gx gy ex ey)) (Some mask) (Some (Nd (nrows gx) (ncols gx) tiles)) true)
    | _ => Raise EnvironmentError
    end.
End load.

(** backends.py:289-319 for a new tile *)
Definition load_sr_tile (f : fs) : res (option tile) := load_tile f [] None SaveAll.
(** The grids loaded by load_grid (convenience.py:75-104). *)
Definition load_sr (f : fs) : res sr_grid := load_grid load_sr_tile f.
(** backends.py:342-352 *)
Definition load_sub (f : fs) : res (option sr_grid) :=
  if fs_exists f [] then let* g := load_sr f in Ok (Some g) else Ok None.
Definition load_vr (f : fs) : res vr_grid := load_grid load_sub f.

(** backends.py:246-275 with a path: the steps in the new root folder, and the grid afterwards. The loop
    over [self.tiles] raises AttributeError when it is None. *)
Definition save_tiles {T} (g : grid T) (save_one : option T -> list prim) : list prim :=
  concat (imap (fun k t => match origin_at g k with
                           | Some (x, y) => prims_in (FFolder (NTile x y)) (save_one t) | None => [] end)
               (match g_tiles g with Some a => nflat a | None => [] end)).
Definition save_exn {T} (g : grid T) : option exn :=
  match g_tiles g with Some _ => None | None => Some AttributeError end.
Definition save_sr_to (g : sr_grid) : out sr_grid :=
  let g1 := g <| g_disk := true |> in
  Out g1 (save_grid g1 ++ save_tiles g1 (fun t => save_tile t SaveAll)) (save_exn g).
(** For a missing sub-grid the code clears a folder of the same name beside the root folder
    (backends.py:271-273), which changes nothing in the root folder. Simplification: a sub-grid has tiles. *)
Definition save_vr_to (g : vr_grid) : out vr_grid :=
  let g1 := g <| g_disk := true |> in
  Out (match g_tiles g1 with
       | Some a => g1 <| g_tiles := Some (nd_map (option_map (fun sg => st_of (save_sr_to sg))) a) |>
       | None => g1 end)
      (save_grid g1 ++ save_tiles g1 (fun o => match o with Some sg => ev_of (save_sr_to sg) | None => [] end)) (save_exn g).
(** save(): the method resolution order picks BaseStorage.save (backends.py:246, 257), not
    OperationalGrid.save (bgrid.py:2150); without a path it does nothing. *)
Definition save_no_path {T} (g : grid T) : out (grid T) := Out g [] None.

(** ** Interrupted saves *)
(** What happens to one entry when the removal of a folder is interrupted. A partly removed array, which is
    a folder of files, is [LTorn]. *)
Inductive fate := Kept | Torn | Gone.
Definition tear (n : node) : node := match n with Dir => Dir | File _ => File LTorn end.
Definition suffer (h : path -> fate) (f : fs) : fs :=
  omap (fun kv : path * node => match h kv.1 with Kept => Some kv | Torn => Some (kv.1, tear kv.2) | Gone => None end) f.
(** What an interrupted step may leave: an unfinished array or json file, or a folder some of whose entries
    are gone or damaged. *)
Definition torn_by (s : prim) (f f' : fs) : Prop :=
  match s with
  | PMkdir p => f' = f
  | PWrite p l => f' = dset f p (File LTorn)
  | PRm p => exists h, f' = suffer (fun q => if under p q then h q else Kept) f
  | PRmCells p => exists h, f' = suffer (fun q => if under_cell p q then h q else Kept) f
  end.
(** The states in which a process that makes the given steps can leave the disk. *)
Inductive crashed : fs -> list prim -> fs -> Prop :=
  | CrashHere f l : crashed f l f
  | CrashIn f s l f' : torn_by s f f' -> crashed f (s :: l) f'
  | CrashLater f s l f' : crashed (fs_step f s) l f' -> crashed f (s :: l) f'.
