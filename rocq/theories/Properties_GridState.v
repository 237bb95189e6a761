(** Properties of a gridded grid's state: C20, C27, C32, C46, C70, C71 for grids. *)
From Coq Require Import Lqa.
From Verif Require Import Py Nd Numpy Point Bin Algorithms Tile Time Meta Disk Grid GridRun GridQuery GridOps
  Spec TileExec GridExec Samples GridSamples PyFacts NdFacts NumpyFacts AlgFacts BinFacts TileFacts TileGridFacts TileRunFacts TileHistFacts ShoalFacts TilePropFacts TileQueryFacts
  GridBaseFacts GridPlaceFacts GridInvFacts GridRootFacts GridEvolveFacts GridSrFacts GridPropFacts GridHistFacts GridRunFacts GridCleanFacts
  GridUpdateFacts GridDensityFacts GridFlagFacts.
Open Scope Z_scope.

(** ** C27 *)
Theorem C27_algorithm {T} (O : tile_ops T) e (g : grid T) a dask :
  m_algorithm (g_meta g) <> "" -> m_algorithm (g_meta g) <> ga_alg a -> ga_clear a = false ->
  g_grid O e g a dask = Out g [] (Some ValueError).
Proof.
  intros H1 H2 H3. pose proof (g_grid_calls O e g a dask) as H.
  assert (E : mismatch g a = true). { unfold mismatch. by rewrite !bool_decide_eq_false_2, H3. }
  by rewrite E in H.
Qed.
(** In particular after a call that returned normally, whatever points come or go afterwards (the history
    that starts from the gridded grid has no call of grid()). *)
Theorem C27_sr_after_grid e size b zarr disk g ct seen ok a dask g' ct' a' dask' :
  0 < size -> sr_history e size b zarr disk g ct seen ok -> exn_of (g_grid sr_ops e g a dask) = None ->
  clean_history sr_ops e (fun _ => False) (st_of (g_grid sr_ops e g a dask)) g' ct' ->
  ga_alg a <> "" -> ga_alg a' <> ga_alg a -> ga_clear a' = false ->
  g_grid sr_ops e g' a' dask' = Out g' [] (Some ValueError).
Proof.
  intros Hs H Hx H' H1 H2 Hc.
  assert (E : m_algorithm (g_meta g') = ga_alg a).
  { rewrite (ungridded_alg _ _ _ _ _ H'). exact (grid_alg sr_ops e tile_keeps tile_keeps_refl tile_keeps_trans (sr_grid_keeps e) sr_reload_keeps t_strip_keeps
      g a dask (root_origins sr_ops _ _ _ _ _ _ (sr_inv e size b zarr disk Hs _ _ _ _ H)) Hx). }
  apply C27_algorithm; [congruence|congruence|done].
Qed.
Theorem C27_vr_after_grid e size sub b zarr disk g ct seen ok a dask g' ct' a' dask' :
  0 < size -> 0 < sub -> vr_history e size sub b zarr disk g ct seen ok -> exn_of (g_grid vr_ops e g a dask) = None ->
  clean_history vr_ops e (fun _ => False) (st_of (g_grid vr_ops e g a dask)) g' ct' ->
  ga_alg a <> "" -> ga_alg a' <> ga_alg a -> ga_clear a' = false ->
  g_grid vr_ops e g' a' dask' = Out g' [] (Some ValueError).
Proof.
  intros Hs Hsub H Hx H' H1 H2 Hc.
  assert (E : m_algorithm (g_meta g') = ga_alg a).
  { rewrite (ungridded_alg _ _ _ _ _ H'). exact (grid_alg vr_ops e sub_keeps sub_keeps_refl sub_keeps_trans (vr_grid_keeps e) vr_reload_keeps g_strip_keeps
      g a dask (vr_origins g) Hx). }
  apply C27_algorithm; [congruence|congruence|done].
Qed.
Print Assumptions C27_algorithm.
Print Assumptions C27_sr_after_grid.
Print Assumptions C27_vr_after_grid.
Example C27_case :
  exn_of (g_grid sr_ops env_s sr_2 mean_4 None) = None /\
  clean_history sr_ops env_s (fun _ => False) run_1 run_2 [("three", pts_three)] /\
  g_grid sr_ops env_s run_2 (grid_args "shoalest" 4 false "full") None = Out run_2 [] (Some ValueError) /\
  exn_of (g_grid sr_ops env_s run_2 (grid_args "shoalest" 4 true "full") None) = None.
Proof.
  split; [by vm_compute|]. split; [|by vm_compute].
  apply (CH_add _ _ _ _ run_1 [] pts_three (args_of "three")); [apply CH_new|by vm_compute].
Qed.

(** ** C20, single resolution grids *)
Theorem C20_sr_density e size b zarr disk g ct a dask r :
  0 < size -> sr_clean e known_args size b zarr disk g ct -> known_args a -> ga_rez a = Some r -> ga_clear a = true ->
  exn_of (g_grid sr_ops e g a dask) = None ->
  let g' := st_of (g_grid sr_ops e g a dask) in
  exists l, g_density_count sr_ops g' = Ok l /\ (sumQ l == numQ (length (all_points ct)))%Q /\
    g_points_count sr_ops g' = length (all_points ct).
Proof. intros Hs H HA Hr Hc Hx. eapply sr_density_sum; eauto. Qed.
(** Without clearing, when only that resolution has ever been used. *)
Theorem C20_sr_one_resolution e size b zarr disk g ct a dask r :
  0 < size -> sr_clean e (fun a => known_args a /\ ga_rez a = Some r) size b zarr disk g ct -> known_args a -> ga_rez a = Some r ->
  exn_of (g_grid sr_ops e g a dask) = None ->
  let g' := st_of (g_grid sr_ops e g a dask) in
  exists l, g_density_count sr_ops g' = Ok l /\ (sumQ l == numQ (length (all_points ct)))%Q /\
    g_points_count sr_ops g' = length (all_points ct).
Proof.
  intros Hs H HA Hr Hx. eapply (sr_density_sum e (fun a => known_args a /\ ga_rez a = Some r)); eauto; [by intros ? []|]. right. by intros ? [].
Qed.
Print Assumptions C20_sr_density.
Print Assumptions C20_sr_one_resolution.
Example C20_case :
  g_density_count sr_ops (sr_run env_s run_2 mean_4) = Ok [2; 1; 1; 1; 1]%Q /\ g_points_count sr_ops run_2 = 6%nat.
Proof. by vm_compute. Qed.
(** With two resolutions each sounding is counted twice. *)
Example C20_two_resolutions : option_map (fun l => sumQ l) ((match g_density_count sr_ops two_rez with Ok l => Some l | _ => None end)) = Some 10%Q /\ g_points_count sr_ops two_rez = 5%nat.
Proof. by vm_compute. Qed.

(** ** C32, grids *)
Theorem C32_sr_coarsest e size b zarr disk g ct seen ok r :
  0 < size -> sr_history e size b zarr disk g ct seen ok -> ct <> [] -> g_resolution_by_density sr_ops e g = Ok r ->
  (exists k t, tile_at g k = Some t /\ t_resolution_by_density e t None None = Ok r) /\
  (forall k t, tile_at g k = Some t -> exists r', t_resolution_by_density e t None None = Ok r' /\ r' <= r) /\
  r <= size /\ (r = size \/ exists k v, (k, v) ∈ documented_bands /\ r = v * e_tpq e).
Proof.
  intros Hs H Hne Hr. destruct (density_coarsest sr_ops e g r) as [H1 H2]; [|exact Hr|].
  { exact (root_live (new_sr_meta 0 0 size b zarr) _ _ _ _ _ Hs (sr_inv e size b zarr disk Hs _ _ _ _ H) Hne). }
  split; [exact H1|]. split; [exact H2|]. destruct H1 as (k & t & Ht & H1).
  rewrite <- (sr_tile_width e size b zarr disk g ct seen ok k t Hs H Ht). by eapply density_legal.
Qed.
Print Assumptions C32_sr_coarsest.
Example C32_grid_case : g_resolution_by_density sr_ops env_s sr_2 = Ok 8.
Proof. by vm_compute. Qed.

(** ** C46 *)
(** No points are given twice or left out; None stands for no points. *)
Theorem C46_border_points e size b zarr disk g ct seen ok k x y q :
  0 < size -> sr_history e size b zarr disk g ct seen ok -> ct <> [] -> origin_at g k = Some (x, y) ->
  get_tile_neighbor_points sr_ops g k q =
    Ok (match border_points size x y q (all_points ct) with [] => None | d => Some d end).
Proof.
  intros Hs H Hne Ho. pose proof (sr_inv e size b zarr disk Hs _ _ _ _ H) as [_ [(_ & E & _)|(_ & lx & ly & nx & ny & a & HP & _)]]; [done|].
  exact (strip_points (new_sr_meta 0 0 size b zarr) b Hs g ct lx ly nx ny a k x y q HP Ho).
Qed.
Print Assumptions C46_border_points.
Example C46_case :
  get_tile_neighbor_points sr_ops cube_2 0 4 = Ok (Some [Point 12 4 20 1 1; Point 8 4 30 1 1]) /\
  get_tile_neighbor_points sr_ops cube_2 0 1 = Ok (Some [Point 8 4 30 1 1]) /\
  origin_at cube_2 0 = Some (0, 0) /\ get_tile_neighbor_points sr_ops cube_2 1 4 = Ok None.
Proof. by vm_compute. Qed.

(** ** C70 *)
(** After a call of grid() that returned normally no_grid is False and every tile holds cells. *)
Theorem C70_sr_after_grid_partial e size b zarr disk g ct a dask :
  0 < size -> sr_clean e known_args size b zarr disk g ct -> known_args a -> exn_of (g_grid sr_ops e g a dask) = None ->
  let g' := st_of (g_grid sr_ops e g a dask) in
  g_no_grid sr_ops g' = Ok false /\ forall k t, tile_at g' k = Some t -> t_cells t <> [].
Proof.
  intros Hs H HA Hx g'.
  destruct (sr_clean_inv e (fun _ _ => True) known_args size b zarr disk Hs known_allows g ct H) as (_ & seen & ok & HI). assert (HC : forall k t, tile_at g' k = Some t -> t_cells t <> []).
  { eapply (sr_grid_cells e known_args); [exact Hs|done|by apply CH_grid|]. apply sr_unchanged; [|done].
    by eapply root_origins. }
  split; [|exact HC]. apply sr_no_grid_false; [exact HC|]. by apply (sr_done_some e (new_sr_meta 0 0 size b zarr) _ g ct seen ok a dask Hs HI).
Qed.
Theorem C70_vr_after_grid_partial e size sub b zarr disk g ct a dask :
  0 < size -> 0 < sub -> vr_clean e known_args size sub b zarr disk g ct -> known_args a -> exn_of (g_grid vr_ops e g a dask) = None ->
  let g' := st_of (g_grid vr_ops e g a dask) in
  g_no_grid vr_ops g' = Ok false /\ forall k sg j t, tile_at g' k = Some sg -> tile_at sg j = Some t -> t_cells t <> [].
Proof.
  intros Hs Hsub H HA Hx g'.
  destruct (vr_clean_inv e (fun _ _ => True) known_args size sub b zarr disk Hs Hsub known_allows g ct H) as (_ & seen & ok & HI).
  assert (HC : forall k sg, tile_at g' k = Some sg -> (exists t, t ∈ live_tiles sg) /\ forall j t, tile_at sg j = Some t -> t_cells t <> []).
  { eapply (vr_grid_cells e known_args); [exact Hs|exact Hsub|done|by apply CH_grid|]. apply vr_unchanged; [|done]. intros k sg Hk.
    destruct (root_rep _ _ _ _ _ _ _ _ HI Hk) as (x & y & ct' & (HC & _) & _). by eapply child_origins. }
  split; [apply vr_no_grid_false; [|exact HC]; by apply (vr_done_some e (new_vr_meta 0 0 size sub b zarr) _ g ct seen ok a dask Hs HI)|]. intros k sg j t Hk Hj. by apply (proj2 (HC k sg Hk) j).
Qed.
(** It is True for a grid that was never gridded. *)
Theorem C70_sr_ungridded_partial e size b zarr disk g ct seen ok :
  0 < size -> sr_history e size b zarr disk g ct seen ok -> (forall k t, tile_at g k = Some t -> t_cells t = []) ->
  g_no_grid sr_ops g = Ok true.
Proof.
  intros Hs H HC. apply sr_no_grid_true; [|done]. destruct (decide (ct = [])) as [E|Hne].
  - left. pose proof (sr_inv e size b zarr disk Hs _ _ _ _ H) as [_ [(E1 & _)|(Hn & _)]]; [done|done].
  - right. exact (root_live (new_sr_meta 0 0 size b zarr) _ _ _ _ _ Hs (sr_inv e size b zarr disk Hs _ _ _ _ H) Hne).
Qed.
Print Assumptions C70_sr_after_grid_partial.
Print Assumptions C70_vr_after_grid_partial.
Print Assumptions C70_sr_ungridded_partial.
Example C70_case : g_no_grid sr_ops sr_2 = Ok true /\ g_no_grid sr_ops run_1 = Ok false /\ g_no_grid vr_ops vrun_1 = Ok false.
Proof. by vm_compute. Qed.
(** Only the first tile is looked at: a new tile before the gridded ones hides them. *)
Definition more_left := sr_add run_1 [Point (-20) (-20) 5 1 1] "left".
Theorem C70_first_tile_refuted :
  exists e size g ct k t, sr_clean e known_args size false false true g ct /\
    tile_at g k = Some t /\ t_cells t <> [] /\ g_no_grid sr_ops g = Ok true.
Proof.
  exists env_s, 8, more_left, (ct_2 ++ [("left", [Point (-20) (-20) 5 1 1])]), 16%nat. eexists. split.
  { apply (CH_add _ _ _ _ run_1 ct_2 [Point (-20) (-20) 5 1 1] (args_of "left")); [|by vm_compute].
    apply (CH_grid _ _ _ _ sr_2 ct_2 mean_4 None); [apply sr_2_clean|apply elem_of_list_here|by vm_compute]. }
  split; [vm_compute; reflexivity|]. split; by vm_compute.
Qed.
Print Assumptions C70_first_tile_refuted.

(** ** C71, grids *)
Theorem C71_sr_after_grid e size b zarr disk g ct seen ok a dask :
  0 < size -> sr_history e size b zarr disk g ct seen ok -> exn_of (g_grid sr_ops e g a dask) = None ->
  g_changed sr_ops (st_of (g_grid sr_ops e g a dask)) = false.
Proof. intros Hs H Hx. apply sr_unchanged; [|done]. exact (root_origins sr_ops _ _ _ _ _ _ (sr_inv e size b zarr disk Hs _ _ _ _ H)). Qed.
Theorem C71_sr_after_add e size b zarr disk g ct seen ok d a :
  0 < size -> sr_history e size b zarr disk g ct seen ok -> d <> [] -> exn_of (g_add_points sr_ops g (GoodData d) a) = None ->
  g_changed sr_ops (st_of (g_add_points sr_ops g (GoodData d) a)) = true.
Proof. apply sr_add_changed. Qed.
Theorem C71_vr_after_grid e size sub b zarr disk g ct seen ok a dask :
  0 < size -> 0 < sub -> vr_history e size sub b zarr disk g ct seen ok -> exn_of (g_grid vr_ops e g a dask) = None ->
  g_changed vr_ops (st_of (g_grid vr_ops e g a dask)) = false.
Proof.
  intros Hs Hsub H Hx. apply vr_unchanged; [|done]. intros k sg Hk.
  destruct (root_rep _ _ _ _ _ _ _ _ (vr_inv e size sub b zarr disk Hs Hsub _ _ _ _ H) Hk) as (x & y & ct' & HC & _). by eapply child_origins.
Qed.
Theorem C71_vr_after_add e size sub b zarr disk g ct seen ok d a :
  0 < size -> 0 < sub -> vr_history e size sub b zarr disk g ct seen ok -> d <> [] -> exn_of (g_add_points vr_ops g (GoodData d) a) = None ->
  g_changed vr_ops (st_of (g_add_points vr_ops g (GoodData d) a)) = true.
Proof. apply vr_add_changed. Qed.
Theorem C71_sr_some_tile (g : sr_grid) : g_changed sr_ops g = true <-> exists k t, tile_at g k = Some t /\ t_changed t = true.
Proof. apply (changed_some sr_ops). Qed.
Theorem C71_vr_some_tile (g : vr_grid) :
  g_changed vr_ops g = true <-> exists k sg j t, tile_at g k = Some sg /\ tile_at sg j = Some t /\ t_changed t = true.
Proof.
  rewrite (changed_some vr_ops). split.
  - intros (k & sg & Hk & (j & t & Hj & Hc)%(changed_some sr_ops)). eauto 8.
  - intros (k & sg & j & t & Hk & Hj & Hc). exists k, sg. split; [done|]. apply (changed_some sr_ops). eauto.
Qed.
Print Assumptions C71_sr_after_grid.
Print Assumptions C71_sr_after_add.
Print Assumptions C71_vr_after_grid.
Print Assumptions C71_vr_after_add.
Print Assumptions C71_sr_some_tile.
Print Assumptions C71_vr_some_tile.
Example C71_case : g_changed sr_ops sr_2 = true /\ g_changed sr_ops run_1 = false /\ g_changed sr_ops run_2 = true /\
  g_changed vr_ops vrun_1 = false /\ g_changed vr_ops vrun_2 = true.
Proof. by vm_compute. Qed.
