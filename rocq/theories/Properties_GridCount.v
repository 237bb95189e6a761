(** Properties of the counts, areas and values of a gridded grid: C47 and C74. *)
From Coq Require Import Lqa.
From Verif Require Import Py Nd Numpy Point Bin Algorithms Tile Time Meta Disk Grid GridRun GridQuery GridOps
  Spec TileExec GridExec Samples GridSamples PyFacts GridUpdateFacts GridReadFacts GridCountFacts.
Open Scope Z_scope.

(** ** C47 *)
(** cell_count counts, for every resolution, the cells of the depth (intensity) layers that hold a value. *)
Theorem C47_cell_count e size b zarr disk g ct : 0 < size -> sr_clean e known_args size b zarr disk g ct ->
  exists d, g_cell_count sr_ops g = Ok d /\
    forall r, default 0%nat (dget d r) = list_sum (map (fun t => populated t r (if b then "intensity" else "depth")) (live_tiles g)).
Proof.
  intros Hs H. destruct (grid_cell_count sr_ops (fun t r => populated t r (if b then "intensity" else "depth")) g) as (d & H1 & _ & H2); [|by exists d].
  intros t Ht. destruct (sr_tile_ok _ _ _ _ _ _ _ _ Hs H Ht) as (HG & HH & Hb). eapply tile_counts_dict; [done|done|by rewrite <- Hb].
Qed.
Theorem C47_cell_count_vr e size sub b zarr disk g ct : 0 < size -> 0 < sub -> vr_clean e known_args size sub b zarr disk g ct ->
  exists d, g_cell_count vr_ops g = Ok d /\ forall r, default 0%nat (dget d r) = list_sum (map (fun t => populated t r "depth") (vr_tiles g)).
Proof.
  intros Hs Hsub H.
  destruct (grid_cell_count vr_ops (fun sg r => list_sum (map (fun t => populated t r "depth") (live_tiles sg))) g) as (d & H1 & _ & H2).
  - intros sg Hsg. apply (grid_cell_count sr_ops (fun t r => populated t r "depth") sg).
    intros t Ht. destruct (vr_tile_ok _ _ _ _ _ _ _ _ _ _ Hs Hsub H Hsg Ht) as (HG & HH & Hb). eapply tile_counts_dict; [done|done|]. unfold t_depth_key. by rewrite Hb.
  - exists d. split; [done|]. intros r. rewrite H2. unfold vr_tiles. by rewrite list_sum_concat, map_map.
Qed.
(** Coverage is within 0.0005 square metres of the area of the cells with a positive density, for each
    resolution of each tile. *)
Theorem C47_coverage e size b zarr disk g ct : 0 < size -> sr_clean e known_args size b zarr disk g ct ->
  exists q, g_coverage_area sr_ops e g = Ok q /\
    (Qabs (q - sumQ (map (gridded_area e) (live_tiles g))) <= numQ (list_sum (map (fun t => length (dkeys (t_cells t))) (live_tiles g))) * (1 # 2000))%Q.
Proof.
  intros Hs H. destruct (grid_coverage sr_ops e (gridded_area e) (fun t => length (dkeys (t_cells t))) g) as (q & H1 & H2); [|exists q; split; [done|]; exact H2].
  intros t Ht. destruct (sr_tile_ok _ _ _ _ _ _ _ _ Hs H Ht) as (HG & HH & _). eexists. split; [by apply tile_coverage|]. apply area_error; [done|done|by apply tile_coverage].
Qed.
Theorem C47_coverage_vr e size sub b zarr disk g ct : 0 < size -> 0 < sub -> vr_clean e known_args size sub b zarr disk g ct ->
  exists q, g_coverage_area vr_ops e g = Ok q /\
    (Qabs (q - sumQ (map (gridded_area e) (vr_tiles g))) <= numQ (list_sum (map (fun t => length (dkeys (t_cells t))) (vr_tiles g))) * (1 # 2000))%Q.
Proof.
  intros Hs Hsub H.
  destruct (grid_coverage vr_ops e (fun sg => sumQ (map (gridded_area e) (live_tiles sg))) (fun sg => list_sum (map (fun t => length (dkeys (t_cells t))) (live_tiles sg))) g) as (q & H1 & H2).
  - intros sg Hsg. apply (grid_coverage sr_ops e (gridded_area e) (fun t => length (dkeys (t_cells t))) sg).
    intros t Ht. destruct (vr_tile_ok _ _ _ _ _ _ _ _ _ _ Hs Hsub H Hsg Ht) as (HG & HH & _).
    eexists. split; [by apply tile_coverage|]. apply area_error; [done|done|by apply tile_coverage].
  - exists q. split; [done|]. unfold vr_tiles. rewrite list_sum_concat, sumQ_concat, !map_map. exact H2.
Qed.
(** When the layers are those of the points held (as after grid(), C24), both count the cells that contain
    points. *)
Theorem C47_points e alg r size b ct g : alg = "mean" \/ alg = "shoalest" -> sr_reflects e alg r size b ct g ->
  forall x y t, has_tile g x y t ->
  let here := filter (fun p => in_square x y size (px p) (py p)) (all_points ct) in
  exists n, cells_cover size r n /\ populated t r (if b then "intensity" else "depth") = cells_with_points x y r n here /\
    positives t r "density" = cells_with_points x y r n here.
Proof.
  intros Ha H x y t (k & Ho & Ht) here. specialize (H k x y Ho). cbv zeta in H. rewrite Ht in H. destruct H as (_ & _ & H).
  by eapply reflects_count.
Qed.
Theorem C47_points_vr e alg r size sub ct g : alg = "mean" \/ alg = "shoalest" -> vr_reflects e alg r size sub ct g ->
  forall x y sg u v t, has_tile g x y sg -> has_tile sg u v t ->
  let here := filter (fun p => in_square x y size (px p) (py p) /\ in_square u v sub (px p) (py p)) (all_points ct) in
  exists n, cells_cover sub r n /\ populated t r "depth" = cells_with_points u v r n here /\ positives t r "density" = cells_with_points u v r n here.
Proof.
  intros Ha H x y sg u v t Hsg (j & Ho & Ht) here. specialize (H x y sg j u v Hsg Ho). cbv zeta in H. rewrite Ht in H. destruct H as (_ & _ & H).
  exact (reflects_count _ _ _ _ _ _ _ _ _ H Ha).
Qed.

Example C47_example :
  sr_clean env_s known_args 8 false false true run_2 ct_3 /\
  g_cell_count sr_ops run_2 = Ok [(4, 5%nat)] /\ g_coverage_area sr_ops env_s run_2 = Ok 5%Q /\
  map (fun t => populated t 4 "depth") (live_tiles run_2) = [1; 2; 2]%nat /\ Qeq (metres env_s 4) 1.
Proof.
  split; [eapply clean_mono, run_2_clean; apply only_mean_known|]. vm_compute. by repeat split.
Qed.
Example C47_example_two : g_cell_count sr_ops two_rez = Ok [(4, 5%nat); (8, 3%nat)] /\ g_coverage_area sr_ops env_s two_rez = Ok 17%Q.
Proof. vm_compute. by repeat split. Qed.
Example C47_example_vr : vr_clean env_s known_args 16 5 false false true vrun_2 ct_3 /\ g_cell_count vr_ops vrun_2 = Ok [(4, 5%nat)].
Proof. split; [eapply clean_mono, vrun_2_clean; apply only_mean_known|]. vm_compute. by repeat split. Qed.

Example C47_example_points : sr_reflects env_s "mean" 4 8 false ct_2 run_1 /\
  map (fun t => populated t 4 "depth") (live_tiles run_1) = [1; 2; 2]%nat /\
  cells_with_points 0 0 4 2 (filter (fun p => in_square 0 0 8 (px p) (py p)) (all_points ct_2)) = 2%nat.
Proof.
  split; [|vm_compute; by repeat split].
  apply (sr_full_reflects env_s known_args Mean 4 8 false false true sr_2 ct_2 mean_4 None); try done; [apply sr_2_clean|by apply given_rez].
Qed.

(** ** C74 *)
(** The values of a floating point layer, tile by tile, row by row. *)
Theorem C74_values e size b zarr disk g ct l : 0 < size -> sr_clean e known_args size b zarr disk g ct -> l ∈ float_layers ->
  g_return_layer_values sr_ops g l = Ok (concat (map (fun t => layer_values t l) (live_tiles g))).
Proof.
  intros Hs H Hl. apply (grid_values sr_ops). intros t Ht. destruct (sr_tile_ok _ _ _ _ _ _ _ _ Hs H Ht) as (HG & HH & _). by eapply tile_values.
Qed.
Theorem C74_values_vr e size sub b zarr disk g ct l : 0 < size -> 0 < sub -> vr_clean e known_args size sub b zarr disk g ct -> l ∈ float_layers ->
  g_return_layer_values vr_ops g l = Ok (concat (map (fun t => layer_values t l) (vr_tiles g))).
Proof.
  intros Hs Hsub H Hl. unfold vr_tiles. rewrite concat_map_concat, map_map. apply (grid_values vr_ops (fun sg => concat (map (fun t => layer_values t l) (live_tiles sg)))).
  intros sg Hsg. apply (grid_values sr_ops). intros t Ht. destruct (vr_tile_ok _ _ _ _ _ _ _ _ _ _ Hs Hsub H Hsg Ht) as (HG & HH & _). by eapply tile_values.
Qed.
(** The count layers have no NaN: their non-zero values. *)
Theorem C74_counts e size b zarr disk g ct l : 0 < size -> sr_clean e known_args size b zarr disk g ct -> l ∈ int_layers ->
  g_return_layer_values sr_ops g l = Ok (concat (map (fun t => filter (fun q => Qeq_bool q 0 = false) (layer_values t l)) (live_tiles g))).
Proof.
  intros Hs H Hl. apply (grid_values sr_ops). intros t Ht. destruct (sr_tile_ok _ _ _ _ _ _ _ _ Hs H Ht) as (HG & HH & _). by eapply tile_counts.
Qed.
Theorem C74_counts_vr e size sub b zarr disk g ct l : 0 < size -> 0 < sub -> vr_clean e known_args size sub b zarr disk g ct -> l ∈ int_layers ->
  g_return_layer_values vr_ops g l = Ok (concat (map (fun t => filter (fun q => Qeq_bool q 0 = false) (layer_values t l)) (vr_tiles g))).
Proof.
  intros Hs Hsub H Hl. unfold vr_tiles. rewrite concat_map_concat, map_map.
  apply (grid_values vr_ops (fun sg => concat (map (fun t => filter (fun q => Qeq_bool q 0 = false) (layer_values t l)) (live_tiles sg)))).
  intros sg Hsg. apply (grid_values sr_ops). intros t Ht. destruct (vr_tile_ok _ _ _ _ _ _ _ _ _ _ Hs Hsub H Hsg Ht) as (HG & HH & _). by eapply tile_counts.
Qed.
(** Any other name is refused as soon as there is a tile. *)
Theorem C74_other (g : sr_grid) l : l ∉ float_layers -> l ∉ int_layers -> live_tiles g <> [] -> g_return_layer_values sr_ops g l = Raise ValueError.
Proof. intros H1 H2 H3. by apply values_other. Qed.

Example C74_example :
  sr_clean env_s known_args 8 false false true run_2 ct_3 /\
  g_return_layer_values sr_ops run_2 "depth" = Ok [5; 10; 30; 7; 20]%Q /\
  g_return_layer_values sr_ops run_2 "density" = Ok [1; 1; 1; 1; 1]%Q /\
  g_return_layer_values sr_ops run_2 "slope" = Raise ValueError.
Proof. split; [eapply clean_mono, run_2_clean; apply only_mean_known|]. vm_compute. by repeat split. Qed.

Print Assumptions C47_cell_count.
Print Assumptions C47_cell_count_vr.
Print Assumptions C47_coverage.
Print Assumptions C47_coverage_vr.
Print Assumptions C47_points.
Print Assumptions C47_points_vr.
Print Assumptions C74_values.
Print Assumptions C74_values_vr.
Print Assumptions C74_counts.
Print Assumptions C74_counts_vr.
Print Assumptions C74_other.
