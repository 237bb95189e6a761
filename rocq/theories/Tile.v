(** tile.py: SRTile. *)
From RecordUpdate Require Export RecordSet.
From Verif Require Import Py Nd Numpy Point Bin Algorithms.
Export RecordSetNotations.
Open Scope Z_scope.

(** grids.py:226-302 (TileGrid), tile.py:14-50 (Tile, SRTile): the attributes of a tile.
    max_x/max_y/width/height are derived from min_x/min_y/size (grids.py:295-301); the name is
    f'{min_x}_{min_y}' and is modelled with the storage layer. *)
Record tile := mkTile {
  t_min_x : Z; t_min_y : Z; t_size : Z; t_backscatter : bool;
  t_data : option (list point);
  t_container : dict string (nat * nat);
  t_cells : dict Z (dict string arr);
  t_edges_x : dict Z (list Z);
  t_edges_y : dict Z (list Z);
  t_indices : dict Z (list Z);
  t_algorithm : option string;
  t_params : option params;
  t_changed : bool }.
Global Instance eta_tile : Settable _ :=
  settable! mkTile <t_min_x; t_min_y; t_size; t_backscatter; t_data; t_container; t_cells;
                    t_edges_x; t_edges_y; t_indices; t_algorithm; t_params; t_changed>.

(** tile.py:47-50 *)
Definition new_tile (min_x min_y size : Z) (backscatter : bool) : tile :=
  mkTile min_x min_y size backscatter None [] [] [] [] [] None None false.

(** grids.py:295-298 *)
Definition t_max_x (t : tile) : Z := t_min_x t + t_size t.
Definition t_max_y (t : tile) : Z := t_min_y t + t_size t.

(** grids.py:253-262 *)
Definition t_points_count (t : tile) : nat :=
  match t_data t with Some d => length d | None => 0%nat end.
(** grids.py:243-251 *)
Definition t_is_empty (t : tile) : bool := (t_points_count t =? 0)%nat.
(** grids.py:264-271 *)
Definition t_layer_names (t : tile) : list string :=
  match t_cells t with [] => [] | (_, layers) :: _ => dkeys layers end.
(** grids.py:273-279 *)
Definition t_resolutions (t : tile) : list Z := dkeys (t_cells t).

(** tile.py:53-66 *)
Definition depth_key_of (backscatter : bool) : string :=
  if backscatter then "intensity" else "depth".
Definition t_depth_key (t : tile) : string := depth_key_of (t_backscatter t).

(** tile.py:22-29 *)
Definition clear_grid (t : tile) : tile :=
  t <| t_cells := [] |> <| t_edges_x := [] |> <| t_edges_y := [] |>.

(** tile.py:31-38 *)
Definition clear_points (t : tile) : tile :=
  t <| t_data := None |> <| t_container := [] |> <| t_indices := [] |>.

(** tile.py:353-362 *)
Definition clear_temp_layers (layers : dict string arr) : dict string arr :=
  ddel (ddel layers "x_slope") "y_slope".
Definition clear_temp_data (t : tile) (r : Z) : tile :=
  t <| t_cells := dmapkv (fun r' l => if decide (r' = r) then clear_temp_layers l else l) (t_cells t) |>.
Definition clear_temp_all (t : tile) (rs : list Z) : tile := foldl clear_temp_data t rs.

(** tile.py:304-305: all True except positions [s, e). *)
Definition range_mask (n s e : nat) : list bool :=
  map (fun i => negb ((s <=? i)%nat && (i <? e)%nat)) (seq 0 n).

(** tile.py:289-314. The loop 307-309 also visits the removed container, which is popped on line
    314. [t_data] is not None when a container is present. *)
Definition t_remove_points (t : tile) (c : string) : tile :=
  match dget (t_container t) c, t_data t with
  | Some (s, e), Some d =>
      let msk := range_mask (length d) s e in
      let chunk := length (slice msk s e) in
      let shifted := dmapv (fun se : nat * nat =>
                        if (e <=? se.1)%nat then (se.1 - chunk, se.2 - chunk)%nat else se)
                      (t_container t) in
      let t1 := t <| t_container := shifted |>
                  <| t_indices := dmapv (mask_select msk) (t_indices t) |> in
      let t2 := clear_temp_all t1 (dkeys (t_indices t)) in
      t2 <| t_data := Some (mask_select msk d) |>
         <| t_container := ddel shifted c |>
         <| t_changed := true |>
  | _, _ => t
  end.

(** tile.py:257-287 *)
Definition t_add_points (t : tile) (data : list point) (c : string) : tile :=
  match t_data t with
  | None =>
      t <| t_data := Some data |>
        <| t_container := [(c, (0, length data)%nat)] |>
        <| t_indices := dmapv (fun _ => replicate (length data) (-1)) (t_indices t) |>
        <| t_changed := true |>
  | Some _ =>
      let t1 := if dmem (t_container t) c then t_remove_points t c else t in
      let d := default [] (t_data t1) in
      let t2 := t1 <| t_container := dset (t_container t1) c (length d, length d + length data)%nat |>
                   <| t_data := Some (d ++ data) |>
                   <| t_indices := dmapv (fun l => l ++ replicate (length data) (-1)) (t_indices t1) |> in
      (clear_temp_all t2 (dkeys (t_indices t1))) <| t_changed := true |>
  end.

(** ** Automatic resolution (tile.py:69-82, 236-255, 534-684; grid_variables.py) *)

(** grid_variables.py depth_resolution_lookup: maximum depth in metres, resolution in units of
    0.25 m. *)
Definition depth_resolution_lookup : list (Z * Z) :=
  [(10, 1); (20, 2); (40, 4); (60, 8); (80, 16); (160, 32); (320, 64); (640, 128); (1280, 256);
   (2560, 512); (5120, 1024); (10240, 2048); (20480, 4096)].
Definition rez_ticks (e : env) (quarters : Z) : Z := quarters * e_tpq e.

(** [np.argmax] of a boolean array: first True, 0 when there is none. *)
Fixpoint argmax_bool (l : list bool) : nat :=
  match l with
  | [] => 0%nat
  | true :: _ => 0%nat
  | false :: r => if existsb id r then S (argmax_bool r) else 0%nat
  end.

(** tile.py:248-251 / bgrid.py:425-428: resolution (quarters) of the first band whose key minus
    the mean depth is positive. [None] is a NaN mean (all comparisons False). *)
Definition band_lookup (mean : option Q) : Z :=
  let flags := map (fun kv : Z * Z =>
                 match mean with
                 | Some m => negb (Qle_bool (inject_Z kv.1 - m) 0)
                 | None => false end) depth_resolution_lookup in
  match depth_resolution_lookup !! argmax_bool flags with Some kv => kv.2 | None => 0 end.

(** tile.py:69-82: [float(self.data['z'].mean())]; [None] is NaN (mean of no points). *)
Definition qmean (l : list Q) : option Q :=
  match l with [] => None | _ => Some (qdiv_count (qsum l) (length l)) end.

(** tile.py:236-255 *)
Definition t_calculate_resolution_lookup (e : env) (t : tile) : res Z :=
  match t_data t with
  | None => Raise ValueError
  | Some d => Ok (Z.min (t_size t) (rez_ticks e (band_lookup (qmean (map pz d)))))
  end.

(** tile.py:333-336 / 535-538: cell edges along one axis. *)
Definition cell_edges (lo hi resolution : Z) : res (list Z) :=
  with_last_edge (arange lo hi resolution) resolution.

Definition xy_of (p : point) : Z * Z := (px p, py p).

(** tile.py:534-541 *)
Definition t_return_cell_counts (t : tile) (resolution : Z) : res (list Z * list nat) :=
  match t_data t with
  | None => Raise TypeError
  | Some d =>
      let* ex := cell_edges (t_min_x t) (t_max_x t) resolution in
      let* ey := cell_edges (t_min_y t) (t_max_y t) resolution in
      let* idx := bin2d_with_indices (map xy_of d) ex ey in
      let u := np_unique idx in
      Ok (u, map (count_of idx) u)
  end.

Definition minimum_points_per_cell : nat := 5.

Inductive adjustment := LOW | HIGH.
(** tile.py:543-578: [None] is (True, ''). *)
Definition assess_counts (counts : list nat) : option adjustment :=
  if existsb (fun c => c <? minimum_points_per_cell)%nat counts then Some LOW
  else if forallb (fun c => minimum_points_per_cell * 4 <? c)%nat counts then Some HIGH
  else None.
Definition t_assess_resolution (t : tile) (resolution : Z) : res (option adjustment) :=
  let* uc := t_return_cell_counts t resolution in Ok (assess_counts uc.2).

Fixpoint index_of (l : list Z) (v : Z) : option nat :=
  match l with
  | [] => None
  | x :: r => if decide (x = v) then Some 0%nat else option_map S (index_of r v)
  end.

(** tile.py:605-626: one iteration of the while loop: return a resolution or continue with a new
    current resolution and the extended list of checked ones. *)
Inductive search_step := Return (r : Z) | Continue (current : Z) (checked : list Z).
Definition density_old_step (options : list Z) (verdict : option adjustment) (current : Z)
    (checked : list Z) : res search_step :=
  let checked' := checked ++ [current] in
  let* i := rofopt (index_of options current) ValueError in
  let next (c : Z) := if bool_decide (c ∈ checked') then Return (Z.max c current) else Continue c checked' in
  match verdict with
  | None => Ok (Return current)
  | Some HIGH =>
      if (i =? 0)%nat then Ok (Return current)
      else let* c := rofopt (options !! (i - 1)%nat) IndexError in Ok (next c)
  | Some LOW =>
      if (i =? length options - 1)%nat then Ok (Return current)
      else let* c := rofopt (options !! (i + 1)%nat) IndexError in Ok (next c)
  end.
(** The loop with a bound on the number of iterations; [None] means the bound was reached. *)
Fixpoint density_old_loop (fuel : nat) (assess : Z -> res (option adjustment)) (options : list Z)
    (current : Z) (checked : list Z) : option (res Z) :=
  match fuel with
  | O => None
  | S n =>
      match (let* v := assess current in density_old_step options v current checked) with
      | Raise x => Some (Raise x)
      | Ok (Return r) => Some (Ok r)
      | Ok (Continue c ch) => density_old_loop n assess options c ch
      end
  end.
Definition rez_options (e : env) : list Z := map (fun kv => rez_ticks e kv.2) depth_resolution_lookup.
(** grid_variables.py starting_resolution_density = 16.0 m *)
Definition starting_resolution_density (e : env) : Z := rez_ticks e 64.
(** tile.py:580-626 *)
Definition t_resolution_by_density_old (fuel : nat) (e : env) (t : tile) (start : option Z)
    : option (res Z) :=
  match start with
  | Some s => if bool_decide (s ∈ rez_options e)
              then density_old_loop fuel (t_assess_resolution t) (rez_options e) s []
              else Some (Raise ValueError)
  | None => density_old_loop fuel (t_assess_resolution t) (rez_options e) (starting_resolution_density e) []
  end.

(** tile.py:666-670: clip an index that ran off the end. *)
Definition clip_index (n i : nat) : nat := if (i =? n)%nat then (i - 1)%nat else i.

(** tile.py:628-684. [max_resolution] of line 676 is computed with the external square root. [None] for
    [start] and [noise] also stands for 0, which lines 650-655 treat in the same way.
    Lines 663-670: when at most 75% of the coarse cells are populated, look the mean depth up with
    searchsorted (a NaN mean sorts last). *)
Definition density_estimate (e : env) (start : Z) (noise : Q) (counts : list nat) : Q :=
  let est := map (fun c => e_sqrt e (2 * 5 * (1 + noise) / (qnat c / (metres e start * metres e start)))%Q) counts in
  (qsum (zip_with (fun s c => s * qnat c) est counts) / qsum (map qnat counts))%Q.
Definition t_resolution_by_density (e : env) (t : tile) (start : option Z) (noise : option Q) : res Z :=
  let* s0 := match start with
             | None => Ok (starting_resolution_density e)
             | Some s => if bool_decide (s ∈ rez_options e) then Ok s else Raise ValueError
             end in
  let noise' := default (3 # 4)%Q noise in
  let tile_size := t_size t in
  let s := Z.min tile_size s0 in
  let max_cells := Qfloor ((tile_size # Z.to_pos s) * (tile_size # Z.to_pos s)) in
  let* uc := t_return_cell_counts t s in
  let full := Qle_bool (qnat (length uc.1) / inject_Z max_cells) (3 # 4) in
  let n := length depth_resolution_lookup in
  let i := if full then
             match qmean (map pz (default [] (t_data t))) with
             | Some m => searchsorted_left_q (map (fun kv => inject_Z kv.1) depth_resolution_lookup) m
             | None => n
             end
           else searchsorted_left_q (map (fun kv => kv.2 # 4)%Q depth_resolution_lookup)
                  (density_estimate e s noise' uc.2) in
  let* kv := rofopt (depth_resolution_lookup !! clip_index n i) IndexError in
  Ok (Z.min (rez_ticks e kv.2) tile_size).

(** ** Gridding *)

Definition layers_at (t : tile) (r : Z) : dict string arr := default [] (dget (t_cells t) r).
Definition set_layers (t : tile) (r : Z) (l : dict string arr) : tile :=
  t <| t_cells := dset (t_cells t) r l |>.
Definition set_layer (t : tile) (r : Z) (name : string) (a : arr) : tile :=
  set_layers t r (dset (layers_at t r) name a).

Definition zero_cell : cell := Some (qnat 0).

(** tile.py:341-351: the layers created for an algorithm (none for an unknown one). *)
Definition initial_layers (dt : dtype) (dk : string) (has_data : bool) (algorithm : string)
    (rows cols : nat) : dict string arr :=
  let nan := nd_full rows cols (None : cell) in
  let zeros := nd_full rows cols zero_cell in
  if bool_decide (algorithm = "mean" \/ algorithm = "shoalest") then
    let l1 := dset (dset [] dk nan) "density" zeros in
    let l2 := if has_data && has_tvu dt then dset l1 "vertical_uncertainty" nan else l1 in
    if has_data && has_thu dt then dset l2 "horizontal_uncertainty" nan else l2
  else if bool_decide (algorithm = "cube") then
    dset (dset (dset (dset (dset [] dk nan) "density" zeros) "hypothesis_count" zeros)
      "total_uncertainty" nan) "hypothesis_ratio" nan
  else [].

(** tile.py:316-351; grid_shape is (x size, y size) as written on line 339. *)
Definition new_grid (e : env) (t : tile) (r : Z) (algorithm : string) : res tile :=
  if negb (is_power_of_two (metres e r)) then Raise ValueError else
  let grid_x := arange (t_min_x t) (t_max_x t) r in
  let grid_y := arange (t_min_y t) (t_max_y t) r in
  let* ex := with_last_edge grid_x r in
  let* ey := with_last_edge grid_y r in
  Ok (set_layers (t <| t_edges_x := dset (t_edges_x t) r ex |> <| t_edges_y := dset (t_edges_y t) r ey |>)
        r (initial_layers (e_dt e) (t_depth_key t) (bool_decide (t_data t <> None)) algorithm
             (length grid_x) (length grid_y))).

(** tile.py:740-741 and 745-747: refill -1 entries of the cached cell indices. *)
Fixpoint fill_new (idx bins : list Z) : list Z :=
  match idx with
  | [] => []
  | i :: r => if i =? -1 then match bins with b :: bs => b :: fill_new r bs | [] => i :: fill_new r [] end
              else i :: fill_new r bins
  end.

(** tile.py:749-757: blank every existing standard layer. *)
Definition blank (a : arr) (v : cell) : arr := nd_full (nrows a) (ncols a) v.
Definition unc_layers : list (string * cell) :=
  [("vertical_uncertainty", None); ("horizontal_uncertainty", None); ("hypothesis_count", zero_cell);
   ("total_uncertainty", None); ("hypothesis_ratio", None)].
Definition blank_layers (dk : string) (l : dict string arr) : res (dict string arr) :=
  let* d := rofopt (dget l dk) KeyError in
  let l1 := dset l dk (blank d None) in
  let* n := rofopt (dget l1 "density") KeyError in
  let l2 := dset l1 "density" (blank n zero_cell) in
  Ok (foldl (fun acc nv => match dget acc nv.1 with
                           | Some a => dset acc nv.1 (blank a nv.2) | None => acc end) l2 unc_layers).

Definition empty_arr : arr := Nd 0 0 [].

(** tile.py:364-395 with only_container=None: values and grids handed to the algorithm. *)
Definition unc_input (present : bool) (l : dict string arr) (name : string) (vals : list Q)
    : res (list Q * arr) :=
  if present then let* g := rofopt (dget l name) KeyError in Ok (vals, g) else Ok ([], empty_arr).

Inductive simple_algorithm := Mean | Shoalest.
Definition run_simple (a : simple_algorithm) :=
  match a with Mean => np_grid_mean | Shoalest => np_grid_shoalest end.

Definition round_if (c : bool) (l : dict string arr) (name : string) (a : arr) : dict string arr :=
  if c then dset l name (arr_round3 a) else l.

(** tile.py:431-467 without only_container. *)
Definition run_simple_grid (e : env) (a : simple_algorithm) (t : tile) (r : Z) : res tile :=
  match t_data t with
  | None => Raise AttributeError
  | Some d =>
      let l := layers_at t r in
      let* tv := unc_input (has_tvu (e_dt e)) l "vertical_uncertainty" (map ptvu d) in
      let* th := unc_input (has_thu (e_dt e)) l "horizontal_uncertainty" (map pthu d) in
      let* idx := rofopt (dget (t_indices t) r) KeyError in
      let* dg := rofopt (dget l (t_depth_key t)) KeyError in
      let* ng := rofopt (dget l "density") KeyError in
      let* o := run_simple a (map pz d) idx dg ng tv.1 th.1 tv.2 th.2 in
      let l1 := dset l (t_depth_key t) (arr_round3 (o_depth o)) in
      let l2 := dset l1 "density" (o_density o) in
      let l3 := round_if (0 <? length tv.1)%nat l2 "vertical_uncertainty" (o_tvu o) in
      let l4 := round_if (0 <? length th.1)%nat l3 "horizontal_uncertainty" (o_thu o) in
      Ok (set_layers t r l4)
  end.

(** tile.py:431-467 with only_container=c: no uncertainties; the result goes to layers c and
    c + '_density'. *)
Definition run_simple_container (a : simple_algorithm) (t : tile) (r : Z) (c : string) : res tile :=
  match t_data t with
  | None => Raise AttributeError
  | Some d =>
      let* se := rofopt (dget (t_container t) c) KeyError in
      let l := layers_at t r in
      let* dg := rofopt (dget l (t_depth_key t)) KeyError in
      let* idx := rofopt (dget (t_indices t) r) KeyError in
      let* o := run_simple a (map pz (slice d se.1 se.2)) (slice idx se.1 se.2)
                  (blank dg None) (blank dg zero_cell) [] [] empty_arr empty_arr in
      Ok (set_layers t r (dset (dset l c (arr_round3 (o_depth o))) (c +:+ "_density") (o_density o)))
  end.

(** tile.py:397-429, 469-507 with only_container=None. *)
Definition run_cube_grid (e : env) (t : tile) (r : Z) (gp : option params) (border : option (list point))
    : res tile :=
  match t_data t with
  | None => Raise TypeError
  | Some d =>
      if negb (has_tvu (e_dt e) && has_thu (e_dt e)) then Raise ValueError else
      let data := d ++ default [] border in
      let l := layers_at t r in
      let* tpu := rofopt (dget l "total_uncertainty") KeyError in
      let* hyp := rofopt (dget l "hypothesis_count") KeyError in
      let* ratio := rofopt (dget l "hypothesis_ratio") KeyError in
      let* idx := rofopt (dget (t_indices t) r) KeyError in
      let* dg := rofopt (dget l (t_depth_key t)) KeyError in
      let* ng := rofopt (dget l "density") KeyError in
      let opt (f : params -> option string) (dflt : string) := default dflt (p ← gp; f p) in
      let call := fun numrows numcols =>
        CubeCall (map pz data) (map pthu data) (map ptvu data) (map px data) (map py data)
          numcols numrows (t_min_x t) (t_max_y t) (opt p_method "local") (opt p_iho "order1a") r
          (opt p_var "cube") in
      let* o := nb_cube e call idx dg ng tpu hyp ratio in
      let l1 := dset l (t_depth_key t) (arr_round3 (q_depth o)) in
      let l2 := dset l1 "density" (q_density o) in
      let l3 := dset l2 "hypothesis_count" (q_hyp o) in
      let l4 := dset l3 "total_uncertainty" (arr_round3 (q_tpu o)) in
      Ok (set_layers t r (dset l4 "hypothesis_ratio" (arr_round3 (q_ratio o))))
  end.

(** tile.py:715-723 *)
Definition choose_resolution (e : env) (t : tile) (r : option Z) (mode : string) : res Z :=
  match r with
  | Some r => Ok r
  | None =>
      if bool_decide (mode = "depth") then t_calculate_resolution_lookup e t
      else if bool_decide (mode = "density") then t_resolution_by_density e t None None
      else Raise ValueError
  end.

(** tile.py:730-747: make sure the grid and the cell index of every point exist. *)
Definition prepare_grid (e : env) (t : tile) (algorithm : string) (r : Z) (gp : option params) : res tile :=
  let* t1 := if negb (dmem (t_cells t) r) || negb (bool_decide (t_algorithm t = Some algorithm))
             then new_grid e (t <| t_algorithm := Some algorithm |> <| t_params := gp |>) r algorithm
             else Ok t in
  let* ex := rofopt (dget (t_edges_x t1) r) KeyError in
  let* ey := rofopt (dget (t_edges_y t1) r) KeyError in
  let* d := rofopt (t_data t1) TypeError in
  match dget (t_indices t1) r with
  | None =>
      let* idx := bin2d_with_indices (map xy_of d) ex ey in
      Ok (t1 <| t_indices := dset (t_indices t1) r idx |>)
  | Some idx =>
      let new_points := map (fun i => i =? -1) idx in
      let* idx' := if existsb id new_points
                   then let* b := bin2d_with_indices (mask_select new_points (map xy_of d)) ex ey in
                        Ok (fill_new idx b)
                   else Ok idx in
      let* l := blank_layers (t_depth_key t1) (layers_at t1 r) in
      Ok (set_layers (t1 <| t_indices := dset (t_indices t1) r idx' |>) r l)
  end.

(** tile.py:761-766 *)
Definition run_algorithm (e : env) (t : tile) (algorithm : string) (r : Z) (gp : option params)
    (border : option (list point)) : res tile :=
  if bool_decide (algorithm = "mean") then run_simple_grid e Mean t r
  else if bool_decide (algorithm = "shoalest") then run_simple_grid e Shoalest t r
  else if bool_decide (algorithm = "cube") then run_cube_grid e t r gp border
  else Ok t.

(** tile.py:686-769. When an exception is raised the tile left behind is [t_grid_left] (TileFail.v). *)
Definition t_grid (e : env) (t : tile) (algorithm : string) (resolution : option Z) (clear : bool)
    (mode : string) (gp : option params) (border : option (list point)) : res (tile * Z) :=
  let* r := choose_resolution e t resolution mode in
  if negb (is_power_of_two (metres e r)) then Raise ValueError else
  let t0 := if clear then clear_grid t else t in
  let t1 := clear_temp_data t0 r in
  let* t2 := prepare_grid e t1 algorithm r gp in
  let* t3 := run_algorithm e t2 algorithm r gp border in
  Ok (t3 <| t_changed := false |>, r).

(** ** Queries on a tile *)

Definition float_layers : list string :=
  ["depth"; "intensity"; "vertical_uncertainty"; "horizontal_uncertainty"; "total_uncertainty";
   "hypothesis_ratio"].
Definition int_layers : list string := ["density"; "hypothesis_count"].
Definition slope_layers : list string := ["x_slope"; "y_slope"].

(** [np.int(nodatavalue)]: truncation; NaN raises ValueError and gives 0 (tile.py:801-805). *)
Definition int_nodata (nodata : cell) : cell :=
  match nodata with
  | None => zero_cell
  | Some q => Some (inject_Z (Z.quot (Qnum q) (Zpos (Qden q))))
  end.
(** tile.py:797-808 *)
Definition layer_nodata (layer : string) (nodata : cell) : cell :=
  if bool_decide (layer ∈ int_layers) then int_nodata nodata else nodata.
Definition is_container_query (layer : string) : bool :=
  negb (bool_decide (layer ∈ float_layers ++ slope_layers ++ int_layers)).

(** tile.py:509-532 *)
Definition run_slopes (e : env) (t : tile) (r : Z) : res tile :=
  if dmem (layers_at t r) "x_slope" then Ok t else
  let* d := rofopt (t_data t) TypeError in
  let* idx := rofopt (dget (t_indices t) r) KeyError in
  let* ex := rofopt (dget (t_edges_x t) r) KeyError in
  let* ey := rofopt (dget (t_edges_y t) r) KeyError in
  let* s := calculate_slopes e (map (fun p => (px p, py p, pz p)) d) idx ex ey in
  Ok (set_layers t r (dset (dset (layers_at t r) "x_slope" s.1) "y_slope" s.2)).

(** tile.py:819-829: run whatever computation the requested layer needs. A container query under
    CUBE always raises (tile.py:408-411 with algorithms.py:209). *)
Definition prepare_query (e : env) (t : tile) (layer : string) (r : Z) (nodata : cell) : res tile :=
  if bool_decide (layer ∈ slope_layers) then run_slopes e t r
  else if is_container_query layer then
    if dmem (t_container t) layer then
      if bool_decide (t_algorithm t = Some "mean") then run_simple_container Mean t r layer
      else if bool_decide (t_algorithm t = Some "shoalest") then run_simple_container Shoalest t r layer
      else if bool_decide (t_algorithm t = Some "cube") then
        if e_cube_enabled e then Raise IndexError else Raise EnvironmentError
      else Ok t
    else
      let* dg := rofopt (dget (layers_at t r) (t_depth_key t)) KeyError in
      Ok (set_layer t r layer (blank dg nodata))
  else Ok t.

Definition is_nan (c : cell) : bool := match c with None => true | Some _ => false end.
Definition all_nan (a : arr) : bool := forallb is_nan (nflat a).
Definition cell_neg (c : cell) : cell := option_map (fun q => Qred (- q)) c.
Definition cell_fill (nodata : cell) (c : cell) : cell := match c with None => nodata | Some q => Some q end.

(** tile.py:830-841. The comparison on line 838 is [layer.lower() == 'depth']; a layer whose lower
    case is 'depth' but which is not 'depth' would be a container name. *)
Definition present_layer (a : arr) (is_depth z_positive_up : bool) (nodata : cell) : option arr :=
  if all_nan a then None else
  let a1 := if is_depth && z_positive_up then nd_map cell_neg a else a in
  Some (nd_map (cell_fill nodata) a1).

Definition ascii_lower (c : Ascii.ascii) : Ascii.ascii :=
  let n := Ascii.nat_of_ascii c in
  if (65 <=? n)%nat && (n <=? 90)%nat then Ascii.ascii_of_nat (n + 32) else c.
Fixpoint str_lower (s : string) : string :=
  match s with EmptyString => EmptyString | String c r => String (ascii_lower c) (str_lower r) end.

(** tile.py:771-841. Returns the tile too: container and slope queries store layers in it. *)
Definition t_get_layers_by_name (e : env) (t : tile) (layer : string) (resolution : option Z)
    (nodata : cell) (z_positive_up : bool) : res (tile * option arr) :=
  let nodata' := layer_nodata layer nodata in
  if t_is_empty t then Ok (t, None) else
  let* mr := match resolution with
             | Some r => Ok (if dmem (t_cells t) r then Some r else None)
             | None => match dkeys (t_cells t) with
                       | [] => Raise IndexError
                       | [r] => Ok (Some r)
                       | _ => Raise ValueError
                       end
             end in
  match mr with
  | None => Ok (t, None)
  | Some r =>
      let* t1 := prepare_query e t layer r nodata' in
      let* a := rofopt (dget (layers_at t1 r) layer) ValueError in
      Ok (t1, present_layer a (bool_decide (str_lower layer = "depth")) z_positive_up nodata')
  end.

(** tile.py:843-873 *)
Definition t_return_layer_values (t : tile) (layer : string) : res (list Q) :=
  if bool_decide (layer ∈ float_layers) then
    Ok (concat (map (fun rl : Z * dict string arr =>
          match dget rl.2 layer with Some a => omap id (nflat a) | None => [] end) (t_cells t)))
  else if bool_decide (layer ∈ int_layers) then
    Ok (concat (map (fun rl : Z * dict string arr =>
          match dget rl.2 layer with
          | Some a => filter (fun q => Qeq_bool q 0 = false) (omap id (nflat a)) | None => [] end) (t_cells t)))
  else Raise ValueError.

(** tile.py:84-101 *)
Definition t_cell_count (t : tile) : res (dict Z nat) :=
  rmap (fun rl : Z * dict string arr =>
          match rl.2 with
          | [] => Raise IndexError
          | (_, a) :: _ => Ok (rl.1, length (filter (fun c => is_nan c = false) (nflat a)))
          end) (t_cells t).

Definition positive_counts (a : arr) : list Q :=
  filter (fun q => Qle_bool q 0 = false) (omap id (nflat a)).
Definition density_layer (rl : Z * dict string arr) : res arr := rofopt (dget rl.2 "density") ValueError.

(** tile.py:103-121 *)
Definition t_density_count (t : tile) : res (list Q) :=
  let* ls := rmap (fun rl => let* a := density_layer rl in Ok (positive_counts a)) (t_cells t) in
  Ok (concat ls).

(** tile.py:123-141 *)
Definition t_density_per_square_meter (e : env) (t : tile) : res (list Q) :=
  let* ls := rmap (fun rl => let* a := density_layer rl in
               Ok (map (fun q => q / (metres e rl.1 * metres e rl.1))%Q (positive_counts a))) (t_cells t) in
  Ok (concat ls).

(** tile.py:203-221 *)
Definition t_coverage_area (e : env) (t : tile) : res Q :=
  let* ls := rmap (fun rl => let* a := density_layer rl in
               Ok (round3 (qnat (length (positive_counts a)) * (metres e rl.1 * metres e rl.1)))) (t_cells t) in
  Ok (qsum ls).

(** grids.py:304-312: x origin, pixel size, y origin (rotations are 0, y pixel size is negated).
    Simplification: conversion to float32 is not modelled. *)
Definition t_get_geotransform (t : tile) (r : Z) : option (Z * Z * Z) :=
  if dmem (t_cells t) r then Some (t_min_x t, r, t_max_y t) else None.
