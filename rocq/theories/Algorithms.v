(** algorithms.py *)
From Verif Require Import Py Nd Numpy Point.
Open Scope Z_scope.

(** algorithms.py:54-56 (and 117-119, 192-194): unique sorted cell indices, their (row, column)
    in the grid, the start of each run in the sorted order and the run lengths. *)
Record groups := Groups {
  gr_rc : list (nat * nat);
  gr_idx : list nat;
  gr_counts : list nat }.

Definition cell_groups (cell_sort : list nat) (cell_indices : list Z) (rows cols : nat) : res groups :=
  let sorted := take_idx cell_indices cell_sort in
  let u := np_unique sorted in
  let* rc := rmap (unravel_index rows cols) u in
  Ok (Groups rc (map (first_index sorted) u) (map (count_of sorted) u)).

Definition qdiv_count (s : Q) (c : nat) : Q := Qred (s / qnat c)%Q.

(** One of lines 58-60, 63-65, 67-69: per-cell mean of [vals] written into [grid]. *)
Definition scatter_mean (cell_sort : list nat) (g : groups) (vals : list Q) (grid : arr) : arr :=
  let sums := reduceat Qplus (take_idx vals cell_sort) (gr_idx g) in
  scatter grid (gr_rc g) (map Some (zip_with qdiv_count sums (gr_counts g))).

(** Line 61 / 123: the cell counts written into the density grid. *)
Definition scatter_counts (g : groups) (density : arr) : arr :=
  scatter density (gr_rc g) (map (fun c => Some (qnat c)) (gr_counts g)).

(** Result of a gridding function: depth, density, tvu and thu grids (the python functions update
    the arrays in place). *)
Record gridded := Gridded { o_depth : arr; o_density : arr; o_tvu : arr; o_thu : arr }.

(** algorithms.py:47-52: an uncertainty is enabled when values and grid are non-empty. *)
Definition unc_enabled (vals : list Q) (grid : arr) : bool :=
  (0 <? length vals)%nat && (0 <? nd_size grid)%nat.

(** algorithms.py:13-71, for an arbitrary sorting permutation [cell_sort]. *)
Definition np_grid_mean_with (cell_sort : list nat) (depth : list Q) (cell_indices : list Z)
    (grid density_grid : arr) (tvu thu : list Q) (tvu_grid thu_grid : arr) : res gridded :=
  let* g := cell_groups cell_sort cell_indices (nrows grid) (ncols grid) in
  Ok (Gridded (scatter_mean cell_sort g depth grid) (scatter_counts g density_grid)
        (if unc_enabled tvu tvu_grid then scatter_mean cell_sort g tvu tvu_grid else tvu_grid)
        (if unc_enabled thu thu_grid then scatter_mean cell_sort g thu thu_grid else thu_grid)).

Definition np_grid_mean (depth : list Q) (cell_indices : list Z) :=
  np_grid_mean_with (argsort cell_indices) depth cell_indices.

Definition q_le (a b : Q) : Prop := Qle_bool a b = true.
Global Instance q_le_dec : RelDecision q_le.
Proof. intros a b. unfold q_le. apply _. Defined.

(** algorithms.py:125-134: [vals[searchsorted(sorted depth, depth_min)]] written into [grid].
    Line 128 indexes the sorted depths but lines 130 and 133 use the result on the unsorted
    uncertainty array, exactly as written here. *)
Definition scatter_shoalest_unc (g : groups) (depth depth_min : list Q) (vals : list Q) (grid : arr)
    : res arr :=
  let sorted_depth := merge_sort q_le depth in
  let depth_idx := map (searchsorted_left_q sorted_depth) depth_min in
  let* v := rmap (fun i => rofopt (vals !! i) IndexError) depth_idx in
  Ok (scatter grid (gr_rc g) (map Some v)).

(** algorithms.py:74-135, for an arbitrary sorting permutation [cell_sort]. *)
Definition np_grid_shoalest_with (cell_sort : list nat) (depth : list Q) (cell_indices : list Z)
    (grid density_grid : arr) (tvu thu : list Q) (tvu_grid thu_grid : arr) : res gridded :=
  let* g := cell_groups cell_sort cell_indices (nrows grid) (ncols grid) in
  let depth_min := reduceat qmin (take_idx depth cell_sort) (gr_idx g) in
  let* tv := if unc_enabled tvu tvu_grid
             then scatter_shoalest_unc g depth depth_min tvu tvu_grid else Ok tvu_grid in
  let* th := if unc_enabled thu thu_grid
             then scatter_shoalest_unc g depth depth_min thu thu_grid else Ok thu_grid in
  Ok (Gridded (scatter grid (gr_rc g) (map Some depth_min)) (scatter_counts g density_grid) tv th).

Definition np_grid_shoalest (depth : list Q) (cell_indices : list Z) :=
  np_grid_shoalest_with (argsort cell_indices) depth cell_indices.

(** algorithms.py:205-211: [grid[validindex] = out[::-1, :][validindex]] where validindex marks
    the cells of the flipped depth array that are not NaN. *)
Definition place_valid (depth_out out grid : arr) : arr :=
  let flipped_depth := nd_flipud None depth_out in
  let flipped := nd_flipud None out in
  nd_init (nrows grid) (ncols grid) (fun r c =>
    match nd_get flipped_depth r c with
    | Some (Some _) => default None (nd_get flipped r c)
    | _ => default None (nd_get grid r c)
    end).

(** Result of nb_cube. *)
Record cubed := Cubed { q_depth : arr; q_density : arr; q_tpu : arr; q_hyp : arr; q_ratio : arr }.

(** algorithms.py:138-213. [call] carries the engine arguments. When the uncertainty grids are the
    empty 1-d arrays of a container query (tile.py:408-411) the boolean index on line 209 raises
    IndexError; those grids have size 0 here. *)
Definition nb_cube (e : env) (call : nat -> nat -> cube_call) (cell_indices : list Z)
    (grid density_grid tpu_grid numhyp_grid ratio_grid : arr) : res cubed :=
  if negb (e_cube_enabled e) then Raise EnvironmentError else
  let* g := cell_groups (argsort cell_indices) cell_indices (nrows grid) (ncols grid) in
  let out := e_cube e (call (nrows grid) (ncols grid)) in
  if (nd_size tpu_grid =? 0)%nat then Raise IndexError else
  Ok (Cubed (place_valid (co_depth out) (co_depth out) grid)
            (scatter_counts g density_grid)
            (place_valid (co_depth out) (co_unc out) tpu_grid)
            (place_valid (co_depth out) (co_hyp out) numhyp_grid)
            (place_valid (co_depth out) (co_ratio out) ratio_grid)).

(** algorithms.py:216-287 without the plotting: per cell, the solver's (a, b) for the points of
    that cell. *)
Definition calculate_slopes_with (e : env) (cell_sort : list nat) (xyz : list (Z * Z * Q))
    (cell_indices : list Z) (nx ny : nat) : res (arr * arr) :=
  let* g := cell_groups cell_sort cell_indices ny nx in
  let fits := map (e_lstsq e) (np_split_tail (take_idx xyz cell_sort) (gr_idx g)) in
  Ok (scatter (nd_full ny nx None) (gr_rc g) (map (fun ab => Some ab.1) fits),
      scatter (nd_full ny nx None) (gr_rc g) (map (fun ab => Some ab.2) fits)).

Definition calculate_slopes (e : env) (xyz : list (Z * Z * Q)) (cell_indices : list Z)
    (edges_x edges_y : list Z) : res (arr * arr) :=
  calculate_slopes_with e (argsort cell_indices) xyz cell_indices (length edges_x - 1) (length edges_y - 1).

(** algorithms.py:290-304. [sizes] are the row-major strides: sizes[-1] = 1 and
    sizes[i] = sizes[i+1] * shape[i+1] (lines 295-299). *)
Fixpoint strides (shape : list Z) : list Z :=
  match shape with
  | [] => []
  | _ :: r =>
      let t := strides r in
      match r, t with
      | s1 :: _, z :: _ => z * s1 :: t
      | _, _ => 1 :: t
      end
  end.
(** lines 300-303 *)
Fixpoint unravel_loop (remainder : Z) (sizes : list Z) : list Z :=
  match sizes with
  | [] => []
  | s :: r => remainder / s :: unravel_loop (remainder mod s) r
  end.
Definition my_unravel_index (index : Z) (shape : list Z) : list Z :=
  unravel_loop index (strides shape).
