(** The file system as the storage backends use it (backends.py), and the primitive steps of a save.
    A grid or tile produces paths relative to its own folder. *)
From Verif Require Import Py Nd Numpy Point Bin Algorithms Tile Time Meta.
Open Scope Z_scope.

(** Names of the entries the backends create:
    a grid or tile folder; 'metadata.json'; the grid arrays 'tile_x_origin', ... (grid_variables.py
    bathygrid_numpy_to_list); 'data'; 'cells_{r}_{layer}'; 'cell_edges_x_{r}'; 'cell_edges_y_{r}';
    'cell_{r}_indices' (backends.py:401-428). Simplification: the text of the names is kept
    symbolic; Names.v gives the text and shows that it can be read back. *)
Inductive fname :=
  | FFolder (n : gname)
  | FMeta
  | FGridArray (key : string)
  | FData
  | FCells (r : Z) (layer : string)
  | FEdgesX (r : Z)
  | FEdgesY (r : Z)
  | FIndices (r : Z).
Global Instance fname_eq_dec : EqDecision fname.
Proof. solve_decision. Defined.
Notation path := (list fname).

(** [fldr[:4] == 'cell'] (backends.py:406) *)
Definition is_cell_entry (n : fname) : bool :=
  match n with FCells _ _ | FEdgesX _ | FEdgesY _ | FIndices _ => true | _ => false end.

(** Contents of a tile's metadata.json (grid_variables.py tile_desired_keys). height equals width
    and max_x/max_y are derived in the model. *)
Record tmeta := TMeta {
  tm_min_x : Z; tm_min_y : Z; tm_size : Z; tm_backscatter : bool;
  tm_container : dict string (nat * nat); tm_algorithm : option string; tm_params : option params;
  tm_changed : bool }.

(** A stored array or json file. An array is a folder of files on disk; it is written as a whole in
    this model. [LTorn] is an array or json file whose writing was interrupted. Simplification:
    conversion of numbers to text and back is lossless (python float repr). *)
Inductive leaf :=
  | LGridMeta (m : gmeta)
  | LTileMeta (m : tmeta)
  | LOrigins (a : nd Z)
  | LMask (a : nd bool)
  | LInts (l : list Z)
  | LPoints (d : list point)
  | LArr (a : arr)
  | LTorn.
Inductive node := Dir | File (l : leaf).
Notation fs := (dict path node).

Definition under (p q : path) : bool := bool_decide (p `prefix_of` q).
Definition fs_exists (f : fs) (p : path) : bool := dmem f p.
Definition fs_read (f : fs) (p : path) : option leaf :=
  match dget f p with Some (File l) => Some l | _ => None end.

(** [os.listdir(p)] *)
Definition child_of (p q : path) : option fname :=
  match reverse q with
  | n :: rp => if bool_decide (reverse rp = p) then Some n else None
  | [] => None
  end.
Definition fs_listdir (f : fs) (p : path) : list fname := omap (child_of p) (dkeys f).

(** Primitive steps: os.makedirs(p, exist_ok=True) (simplification: the parent exists), writing one
    array or json file, rmtree of an existing path (backends.py:182-193,
    utilities.py:389-407), and removing all entries of a folder whose name starts with 'cell'
    (backends.py:405-407). *)
Inductive prim := PMkdir (p : path) | PWrite (p : path) (l : leaf) | PRm (p : path) | PRmCells (p : path).

Definition fs_rm (f : fs) (p : path) : fs := filter (fun kv => under p kv.1 = false) f.
Definition under_cell (p q : path) : bool :=
  match decide (p `prefix_of` q) with
  | left _ => match drop (length p) q with n :: _ => is_cell_entry n | [] => false end
  | right _ => false
  end.
Definition fs_step (f : fs) (s : prim) : fs :=
  match s with
  | PMkdir p => if fs_exists f p then f else dset f p Dir
  | PWrite p l => dset f p (File l)
  | PRm p => fs_rm f p
  | PRmCells p => filter (fun kv => under_cell p kv.1 = false) f
  end.
Definition fs_run (f : fs) (l : list prim) : fs := foldl fs_step f l.

(** The same steps inside folder [n]. *)
Definition prim_in (n : fname) (s : prim) : prim :=
  match s with
  | PMkdir p => PMkdir (n :: p)
  | PWrite p l => PWrite (n :: p) l
  | PRm p => PRm (n :: p)
  | PRmCells p => PRmCells (n :: p)
  end.
Definition prims_in (n : fname) (l : list prim) : list prim := map (prim_in n) l.

(** backends.py:376-378, 551-560: remove, then write. *)
Definition save_array (p : path) (l : leaf) : list prim := [PRm p; PWrite p l].

(** ** Tiles *)
(** Which part is saved: only_points, only_grid or both. *)
Inductive save_mode := SavePoints | SaveGrid | SaveAll.
Definition saves_points (m : save_mode) : bool := match m with SaveGrid => false | _ => true end.
Definition saves_grid (m : save_mode) : bool := match m with SavePoints => false | _ => true end.

Definition tile_meta (t : tile) : tmeta :=
  TMeta (t_min_x t) (t_min_y t) (t_size t) (t_backscatter t) (t_container t) (t_algorithm t)
    (t_params t) (t_changed t).

(** backends.py:409-424: the layers that are stored, in this order. *)
Definition stored_layers : list string :=
  ["depth"; "intensity"; "density"; "vertical_uncertainty"; "horizontal_uncertainty";
   "total_uncertainty"; "hypothesis_count"; "hypothesis_ratio"].

(** Reading a tile back after it was saved (backends.py:289-319, 458-479): the stored layers in the
    stored order; layers of other names are lost. With only_points the grid is not touched. *)
Definition stored_part (l : dict string arr) : dict string arr :=
  omap (fun n => match dget l n with Some a => Some (n, a) | None => None end) stored_layers.
Definition t_reload (m : save_mode) (t : tile) : tile :=
  if saves_grid m then t <| t_cells := dmapv stored_part (t_cells t) |> else t.

(** backends.py:408-426 for one resolution; a missing edge entry would raise KeyError, it is skipped
    here (the edges are written together with the cells, tile.py:337-338). *)
Definition save_cells (r : Z) (layers : dict string arr) (ex ey : option (list Z)) : list prim :=
  concat (map (fun n => match dget layers n with
                        | Some a => save_array [FCells r n] (LArr a) | None => [] end) stored_layers) ++
  match ex with Some l => save_array [FEdgesX r] (LInts l) | None => [] end ++
  match ey with Some l => save_array [FEdgesY r] (LInts l) | None => [] end.

(** backends.py:383-428, 569-614 *)
Definition save_tile_data (t : tile) (m : save_mode) : list prim :=
  (if saves_points m then save_array [FData] (LPoints (default [] (t_data t))) else []) ++
  (if saves_grid m then
     PRmCells [] ::
     concat (map (fun rl : Z * dict string arr =>
       save_cells rl.1 rl.2 (dget (t_edges_x t) rl.1) (dget (t_edges_y t) rl.1)) (t_cells t))
   else []) ++
  concat (map (fun ri : Z * list Z => save_array [FIndices ri.1] (LInts ri.2)) (t_indices t)).

(** backends.py:219-244 (with 81-99): relative to the tile folder. *)
Definition save_tile (t : option tile) (m : save_mode) : list prim :=
  match t with
  | None => [PRm []]
  | Some t => PMkdir [] :: PWrite [FMeta] (LTileMeta (tile_meta t)) :: save_tile_data t m
  end.

(** backends.py:430-445: the resolutions found among the folder entries, ascending. *)
Definition listed_rezs (names : list fname) : list Z :=
  np_unique (omap (fun n => match n with FCells r _ => Some r | _ => None end) names).

Definition read_arr (f : fs) (p : path) : res arr :=
  match fs_read f p with Some (LArr a) => Ok a | _ => Raise FileNotFoundError end.
Definition read_ints (f : fs) (p : path) : res (list Z) :=
  match fs_read f p with Some (LInts a) => Ok a | _ => Raise FileNotFoundError end.
Definition read_points (f : fs) (p : path) : res (list point) :=
  match fs_read f p with Some (LPoints a) => Ok a | _ => Raise FileNotFoundError end.

(** backends.py:448-476: the layers of one resolution. *)
Definition load_layers (f : fs) (p : path) (r : Z) : res (dict string arr) :=
  foldl (fun acc n =>
           let* l := acc in
           if fs_exists f (p ++ [FCells r n]) then
             let* a := read_arr f (p ++ [FCells r n]) in Ok (dset l n a)
           else Ok l) (Ok []) stored_layers.

(** backends.py:289-319 (with 101-121 and 430-479) for the tile folder [p]. [old] is the tile already
    in memory (None: a new SRTile() is made, whose attributes are then overwritten by those in
    metadata.json). Result None: no folder. *)
Definition load_tile (f : fs) (p : path) (old : option tile) (m : save_mode) : res (option tile) :=
  if fs_exists f p then
    match fs_read f (p ++ [FMeta]) with
    | Some (LTileMeta tm) =>
        let t0 := default (new_tile 0 0 0 false) old in
        let t1 := mkTile (tm_min_x tm) (tm_min_y tm) (tm_size tm) (tm_backscatter tm) (t_data t0)
                    (tm_container tm) (t_cells t0) (t_edges_x t0) (t_edges_y t0) (t_indices t0)
                    (tm_algorithm tm) (tm_params tm) (tm_changed tm) in
        let rezs := listed_rezs (fs_listdir f p) in
        let* t2 := if saves_points m then
                     let* d := read_points f (p ++ [FData]) in Ok (t1 <| t_data := Some d |>)
                   else Ok t1 in
        let* t3 := if saves_grid m then
                     foldl (fun acc r =>
                       let* t := acc in
                       let* l := load_layers f p r in
                       let* ex := read_ints f (p ++ [FEdgesX r]) in
                       let* ey := read_ints f (p ++ [FEdgesY r]) in
                       Ok (t <| t_cells := dset (t_cells t) r l |> <| t_edges_x := dset (t_edges_x t) r ex |>
                             <| t_edges_y := dset (t_edges_y t) r ey |>)) (Ok t2) rezs
                   else Ok t2 in
        let* t4 := foldl (fun acc r =>
                     let* t := acc in
                     let* idx := read_ints f (p ++ [FIndices r]) in
                     Ok (t <| t_indices := dset (t_indices t) r idx |>)) (Ok t3) rezs in
        Ok (Some t4)
    | _ => Raise EnvironmentError
    end
  else Ok None.
