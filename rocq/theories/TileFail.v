(** The tile that a call of grid() leaves behind when it raises. *)
From Verif Require Import Py Nd Numpy Point Bin Algorithms Tile.
Open Scope Z_scope.

(** tile.py:749-757 stopped by a missing layer: the depth layer is blanked before 'density' is looked up. *)
Definition blank_left (dk : string) (l : dict string arr) : dict string arr :=
  match dget l dk with Some d => dset l dk (blank d None) | None => l end.

(** tile.py:730-757 stopped by an exception. The algorithm and its parameters are recorded before new_grid
    (lines 731-732); new_grid stores nothing before its edges are computed (lines 333-351); the cell indices
    are stored (line 747) before the layers are blanked. *)
Definition prepare_left (e : env) (t : tile) (algorithm : string) (r : Z) (gp : option params) : tile :=
  let fresh := t <| t_algorithm := Some algorithm |> <| t_params := gp |> in
  match (if negb (dmem (t_cells t) r) || negb (bool_decide (t_algorithm t = Some algorithm))
         then new_grid e fresh r algorithm else Ok t) with
  | Raise _ => fresh
  | Ok t1 =>
      match dget (t_edges_x t1) r, dget (t_edges_y t1) r, t_data t1, dget (t_indices t1) r with
      | Some ex, Some ey, Some d, Some idx =>
          let new_points := map (fun i => i =? -1) idx in
          match (if existsb id new_points
                 then let* b := bin2d_with_indices (mask_select new_points (map xy_of d)) ex ey in Ok (fill_new idx b)
                 else Ok idx) with
          | Raise _ => t1
          | Ok idx' => set_layers (t1 <| t_indices := dset (t_indices t1) r idx' |>) r (blank_left (t_depth_key t1) (layers_at t1 r))
          end
      | _, _, _, _ => t1
      end
  end.

(** tile.py:686-769 stopped by an exception; used only where [t_grid] raises. The algorithms raise before they
    store anything in the layers they are given (algorithms.py:30-140, 200-224). *)
Definition t_grid_left (e : env) (t : tile) (algorithm : string) (resolution : option Z) (clear : bool)
    (mode : string) (gp : option params) : tile :=
  match choose_resolution e t resolution mode with
  | Raise _ => t
  | Ok r =>
      if negb (is_power_of_two (metres e r)) then t else
      let t1 := clear_temp_data (if clear then clear_grid t else t) r in
      match prepare_grid e t1 algorithm r gp with
      | Raise _ => prepare_left e t1 algorithm r gp
      | Ok t2 => t2
      end
  end.
